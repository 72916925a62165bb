(** Creation and removal against the specification. *)
From Coq Require Import ZArith List Bool Lia Sorting.Permutation Sorting.Sorted.
Import ListNotations.
From Verif Require Import Base BaseFacts LRUModel RBModel RBTree RBOrder RBInsert RBPop RBSpec RBLink RBAny NsModel NsSpec NsPath NsInv NsFind NsChange.
Open Scope Z_scope.
Notation length := List.length.

(** ** paths after a change in one folder *)
Lemma below_dec : forall p x : path, {below p x} + {~ below p x}.
Proof.
  induction p as [|n p IH]; intros x; [left; exists x; auto|]. destruct x as [|m x]; [right; intros (r & E); discriminate|].
  destruct (list_eq_dec Z.eq_dec n m) as [->|N]; [|right; intros (r & E); injection E as -> _; auto].
  destruct (IH x) as [H|H]; [left; destruct H as (r & ->); exists r; auto|right; intros (r & E); injection E as E; apply H; exists r; auto].
Qed.
Section Edit.
Variables (nm nm' : Z -> name) (ch ch' : Z -> list Z) (root : Z) (q : path) (n : name).
Hypothesis D : kids_distinct nm ch. Hypothesis O : one_parent ch. Hypothesis N0 : forall i, ~ In 0 (ch i).
Hypothesis Hq : walk nm ch 0 q = Some root.
Hypothesis Other : forall b, b <> root -> ch' b = ch b.
Hypothesis Names : forall b j, In j (ch b) -> nm' j = nm j.
Hypothesis Same : forall m, m <> n -> List.find (fun j => zlist_eqb (nm' j) m) (ch' root) = List.find (fun j => zlist_eqb (nm j) m) (ch root).
Lemma edit_at : walk nm' ch' 0 q = Some root.
Proof.
  rewrite <- Hq. apply walk_ext. intros p b Hb (m & r & E). split; [|intros; eapply Names; eauto]. apply Other. intros ->.
  assert (p = q) by (eapply walk_inj; eauto). subst p. rewrite <- (app_nil_r q) in E at 1. apply app_inv_head in E. discriminate.
Qed.
Lemma edit_away : forall a r, (forall r0, walk nm ch a r0 <> Some root) -> walk nm' ch' a r = walk nm ch a r.
Proof. intros a r H. apply walk_ext. intros p b Hb _. split; [|intros; eapply Names; eauto]. apply Other. intros ->. eapply H; eauto. Qed.
Lemma edit_below_root : forall j r, In j (ch root) -> walk nm' ch' j r = walk nm ch j r.
Proof.
  intros j r H. apply edit_away. intros r0 E. assert (Q : walk nm ch root (nm j :: r0) = Some root).
  { cbn. replace (List.find _ _) with (Some j); auto. symmetry. apply find_kid; auto. }
  apply (walk_acyclic nm ch 0 D O N0 q root _ Hq) in Q. discriminate.
Qed.
Lemma edit_other : forall x, ~ below (q ++ [n]) x -> walk nm' ch' 0 x = walk nm ch 0 x.
Proof.
  intros x H. destruct (below_dec q x) as [(r & ->)|B].
  - rewrite !walk_app, Hq, edit_at. destruct r as [|m r]; auto. assert (M : m <> n) by (intros ->; apply H; exists r; rewrite <- app_assoc; auto).
    cbn [walk]. rewrite Same by auto. destruct (List.find (fun j => zlist_eqb (nm j) m) (ch root)) as [j|] eqn:E; auto. apply edit_below_root. apply find_some in E. tauto.
  - apply walk_ext. intros p b Hb (m & r & ->). split; [|intros; eapply Names; eauto]. apply Other. intros ->. apply B. exists (m :: r). f_equal. eapply walk_inj; eauto.
Qed.
End Edit.

Section Steps.
Variable upper : list Z -> list Z.
Variables (per : Z) (cap : nat).
Notation Inv := (Inv upper per).
Notation maxn := (maxn per).
Notation none := (fun _ : Z => False).
(** no folder has two red entries in line *)
Definition Bal (s : ns) (L : list Z) : Prop := forall i, In i L -> dirat s i = true -> NoRedRed (n_st s) (d_child (n_st s i)) false.

Lemma view_eq : forall X s ch L s' ch' x, Inv X s ch L -> walk (nmof s') ch' 0 x = walk (nmof s) ch 0 x -> (forall i, In i L -> d_kind (n_st s' i) = d_kind (n_st s i)) -> view s' ch' x = view s ch x.
Proof.
  intros X s ch L s' ch' x V E K. unfold view. rewrite E. destruct (walk (nmof s) ch 0 x) as [i|] eqn:F; auto. cbn. f_equal. f_equal. apply K. eapply inv_live; eauto. apply (v_root _ _ _ _ _ _ V).
Qed.
Lemma view_live : forall X s ch L p i k, Inv X s ch L -> view s ch p = Some (i, k) -> In i L.
Proof. intros X s ch L p i k V H. apply view_Some in H as [H _]. eapply inv_live; eauto. apply (v_root _ _ _ _ _ _ V). Qed.
Lemma NoRedRed_ext : forall st st' t c, rep st t -> (forall j, In j (ids t) -> d_red (st' j) = d_red (st j) /\ d_left (st' j) = d_left (st j) /\ d_right (st' j) = d_right (st j)) -> NoRedRed st (rid t) c -> NoRedRed st' (rid t) c.
Proof. intros st st' t c R H Q. destruct (NR_tree _ _ _ R Q) as [<- Q2]. apply tree_NR; auto. eapply rep_links; eauto. Qed.

(** attach keeps folders without two red entries in line that way *)
Lemma attach_bal : forall X s ch L root i s', Inv X s ch L -> In root L -> dirat s root = true -> In i L -> i <> root ->
  (forall x, ~ In i (ch x)) -> d_left (n_st s i) = None -> d_right (n_st s i) = None ->
  (forall j, In j (ch root) -> name_eq upper (nmof s i) (nmof s j) = false) -> Bal s L -> attach upper per s root i = Done s' tt -> Bal s' L.
Proof.
  intros X s ch L root i s' V Hp Dp Hi Ni Fl Li Ri Ne HB E. destruct (inv_tree _ _ _ _ _ _ V root Hp Dp) as (t & T1 & T2 & T3).
  unfold attach in E. cbv zeta in E. cbn [with_par n_st] in E. change (NsModel.maxn per (with_par s i (Some root))) with (maxn s) in E.
  destruct (add_child_ok upper (n_st s) root i (maxn s) t) as (st' & t' & Q & R); auto.
  { pose proof (HB root Hp Dp) as B. rewrite (h_child _ _ _ T1) in B. apply (NR_tree _ _ _ (h_rep _ _ _ T1)) in B. tauto. }
  { pose proof (HB root Hp Dp) as B. rewrite (h_child _ _ _ T1) in B. apply (NR_tree _ _ _ (h_rep _ _ _ T1)) in B. tauto. }
  { eapply live_pos; eauto. } { rewrite T3. auto. } { intros j Hj. rewrite T3 in Hj. apply Ne. auto. } { rewrite T3. apply (inv_few _ _ _ _ _ _ V). }
  rewrite Q in E. assert (Es : n_st s' = st') by (cbn [with_st with_par n_cache] in E; destruct (cget (n_cache s) root); injection E as <-; reflexivity).
  destruct R as [R1 R2 R3 R4 R4' _ R5 R6 R8 R9]. intros x Hx Dx. rewrite Es. unfold dirat in Dx. rewrite Es, (proj2 (R5 x (live_pos _ _ _ _ _ _ _ V Hx))) in Dx.
  destruct (Z.eq_dec x root) as [->|N].
  - rewrite (h_child _ _ _ R1), <- R4. apply tree_NR; auto. apply (h_rep _ _ _ R1).
  - rewrite R6 by (auto; eapply live_pos; eauto). destruct (inv_tree _ _ _ _ _ _ V x Hx Dx) as (u & U1 & U2 & U3). rewrite (h_child _ _ _ U1). eapply NoRedRed_ext; [apply (h_rep _ _ _ U1)| |rewrite <- (h_child _ _ _ U1); apply HB; auto].
    intros y Hy. destruct (Z.eq_dec y root) as [->|M].
    + rewrite R9. pose proof (set_child_links (n_st s) root (rid t') root). tauto.
    + rewrite R8; auto; [intros ->; apply (h_HEAD _ _ _ U1); auto|intros ->; apply (Fl x); rewrite <- U3; auto|]. intros Z. apply N. eapply (inv_one_parent _ _ _ _ _ _ V); [rewrite <- U3; exact Hy|rewrite <- T3; auto].
Qed.

(** ** create *)
Definition case_ok (m : pmap) (p : path) : Prop := forall q n x, p = q ++ [n] -> m (q ++ [x]) <> None -> alike upper x n -> x = n.
Lemma not_blocked_prefix : forall m p r, ~ blocked m (p ++ r) -> ~ blocked m p.
Proof. intros m p r H (q & n & t & i & -> & E). apply H. exists q, n, (t ++ r), i. rewrite <- app_assoc. auto. Qed.
Lemma looks_Ok : forall m p o, looks m p (Ok o) <-> ~ blocked m p /\ o = m p.
Proof. intros. split; [intros H; inversion H; auto|intros [H ->]; constructor; auto]. Qed.
Lemma walk_none_app : forall nm ch p r, walk nm ch 0 p = None -> walk nm ch 0 (p ++ r) = None.
Proof. intros. rewrite walk_app, H. auto. Qed.
Lemma find_perm_new : forall nm l l' i m, Permutation l' (i :: l) -> distinct nm l' -> nm i <> m -> List.find (fun j => zlist_eqb (nm j) m) l' = List.find (fun j => zlist_eqb (nm j) m) l.
Proof.
  intros nm l l' i m P D N. destruct (List.find (fun j => zlist_eqb (nm j) m) l') as [x|] eqn:E.
  - apply find_some in E as [E1 E2]. apply zlist_eqb_spec in E2. pose proof (Permutation_in _ P E1) as [->|H]; [congruence|].
    destruct (List.find (fun j => zlist_eqb (nm j) m) l) as [y|] eqn:F.
    + apply find_some in F as [F1 F2]. apply zlist_eqb_spec in F2. f_equal. apply D; auto; [|congruence]. eapply Permutation_in; [symmetry; exact P|]. right. auto.
    + apply (find_none _ _ F) in H. rewrite E2, zlist_eqb_refl in H. discriminate.
  - destruct (List.find (fun j => zlist_eqb (nm j) m) l) as [y|] eqn:F; auto. apply find_some in F as [F1 F2]. assert (In y l') by (eapply Permutation_in; [symmetry; exact P|right; auto]).
    apply (find_none _ _ E) in H. congruence.
Qed.

Lemma find_ext_in : forall A (f g : A -> bool) l, (forall x, In x l -> f x = g x) -> List.find f l = List.find g l.
Proof. intros A f g l H. induction l as [|a l IH]; cbn; auto. rewrite H by (left; auto). destruct (g a); auto. apply IH. intros x Hx. apply H. right. auto. Qed.
Lemma find_mid : forall (nm : Z -> name) A B j m, nm j <> m -> List.find (fun x => zlist_eqb (nm x) m) (A ++ B) = List.find (fun x => zlist_eqb (nm x) m) (A ++ j :: B).
Proof.
  intros nm A B j m H. induction A as [|a A IH]; cbn; [|destruct (zlist_eqb (nm a) m); auto].
  destruct (zlist_eqb (nm j) m) eqn:E; auto. apply zlist_eqb_spec in E. tauto.
Qed.

Lemma same_view : forall s s' ch, only_cache s s' -> same_map (view s ch) (view s' ch).
Proof. intros s s' ch O x. rewrite (only_cache_view _ _ _ O). auto. Qed.

Lemma create_ok : forall s ch L p k, Inv none s ch L -> clean p -> k = STORAGE \/ k = STREAM -> case_ok (view s ch) p ->
  match create_dir_entry upper per cap s (text_of p) k with
  | Done s' i => exists ch' L', Inv none s' ch' L' /\ creates check_name (view s ch) p k (VId (Some i)) (view s' ch') /\ (Bal s L -> Bal s' L')
  | Fail s' e => Inv none s' ch L /\ creates check_name (view s ch) p k (VErr e) (view s' ch) /\ n_st s' = n_st s
  | Broken e => exists q n i j, p = q ++ [n] /\ view s ch q = Some (i, j) /\ dirat s i = true /\ ~ NoRedRed (n_st s) (d_child (n_st s i)) false
  end.
Proof.
  intros s ch L p k V C Hk Hc. unfold create_dir_entry, exists_.
  destruct (find_looks upper per cap p s ch L V C) as (s1 & V1 & O1 & _ & [[H1 ->]|(H1 & -> & _)]); cbn [nbind].
  { split; auto. split; [|apply (only_cache_nm _ _ O1)]. apply C_block; auto. apply same_view; auto. }
  destruct (walk (nmof s) ch 0 p) as [i0|] eqn:W.
  { split; auto. split; [|apply (only_cache_nm _ _ O1)]. eapply C_exists; [|apply same_view; auto]. replace (Some (i0, d_kind (n_st s i0))) with (view s ch p) by (unfold view; rewrite W; auto). auto. }
  destruct p as [|n' p'] using rev_ind; [cbn in W; discriminate|]. clear IHp'. rename p' into q, n' into n.
  pose proof C as C'. apply Forall_app in C' as [Cq Cn]. apply Forall_cons_iff in Cn as [Cn _].
  rewrite dirname_text by auto. rewrite basename_text by auto.
  assert (Vn : view s ch (q ++ [n]) = None) by (apply view_None; auto).
  rewrite Vn in H1.
  destruct (only_cache_nm _ _ O1) as (Nm1 & St1 & _). pose proof (only_cache_view _ _ ch O1) as Vw1.
  destruct (find_looks upper per cap q s1 ch L V1 Cq) as (s2 & V2 & O2 & _ & [[H2 _]|(H2 & -> & _)]).
  { exfalso. inversion H2. rewrite Vw1 in H. apply (proj1 (looks_Ok _ _ _)) in H1 as [H1 _]. eapply not_blocked_prefix; eauto. }
  rewrite Nm1. cbn [nbind]. pose proof (only_cache_trans _ _ _ O1 O2) as O12. pose proof (only_cache_view _ _ ch O12) as Vw2. destruct (only_cache_nm _ _ O12) as (Nm2 & St2 & _).
  destruct (walk (nmof s) ch 0 q) as [root|] eqn:Wq.
  2:{ split; auto. split; auto. eapply C_orphan; eauto; [apply view_None; auto|apply same_view; auto]. }
  fold (dirat s2 root). assert (Hr : In root L) by (eapply (inv_live _ _ _ _ _ _ V); [|exact Wq]; apply (v_root _ _ _ _ _ _ V)).
  assert (Dr : dirat s2 root = true).
  { unfold dirat. rewrite St2. destruct (isdir (d_kind (n_st s root))) eqn:Z; auto. exfalso. apply (proj1 (looks_Ok _ _ _)) in H1 as [H1 _]. apply H1. exists q, n, [], root. split; auto. apply view_Some. split; auto. symmetry. eapply inv_notdir; eauto. }
  rewrite Dr. cbn [negb].
  destruct (new_id_ok upper per _ _ _ _ V2) as (s3 & i & -> & V3 & Ni & Nf & Ri & St3 & Pa3 & Ca3 & Lo3).
  assert (Nm3 : nmof s3 = nmof s) by (unfold nmof; rewrite St3, St2; auto).
  assert (Vw3 : view s3 ch = view s ch) by (unfold view; rewrite Nm3, St3, St2; auto).
  destruct (check_name n) as [[]|e] eqn:Ck.
  2:{ split; auto. split; [|rewrite St3; auto]. eapply C_name; eauto. apply view_Some; split; eauto. intros x. rewrite Vw3. auto. }
  set (s4 := with_st s3 (supd (n_st s3) i (mkd n k true None None None))).
  destruct (place_ok upper per s3 ch L i n k V3 Ni Nf Ri Hk) as (V4 & Ci & Fl). fold s4 in V4.
  assert (N4 : forall x, x <> i -> n_st s4 x = n_st s x) by (intros x Hx; unfold s4; cbn; rewrite supd_other, St3, St2; auto).
  assert (I4 : n_st s4 i = mkd n k true None None None) by (unfold s4; cbn; apply supd_same).
  assert (Nr : i <> root) by (intros ->; auto).
  assert (Z0 : i <> 0) by (intros ->; apply Ni; apply (v_root _ _ _ _ _ _ V)).
  assert (D4 : dirat s4 root = true). { unfold dirat. rewrite N4 by auto. unfold dirat in Dr. rewrite St2 in Dr. auto. }
  assert (Ne : forall j, In j (ch root) -> name_eq upper (nmof s4 i) (nmof s4 j) = false).
  { intros j Hj. unfold nmof. rewrite I4, N4 by (intros ->; eapply Fl; eauto). cbn. destruct (name_eq upper n (d_name (n_st s j))) eqn:Z; auto. exfalso.
    apply name_eq_iff in Z as [Z1 Z2]. assert (Wj : walk (nmof s) ch 0 (q ++ [nmof s j]) = Some j). { apply walk_snoc; [apply (inv_distinct _ _ _ _ _ _ V)|]. exists root. auto. }
    assert (Q : nmof s j = n). { apply (Hc q n (nmof s j)); auto; [intros Q; apply view_None in Q; congruence|split; auto]. } rewrite Q in Wj. congruence. }
  destruct (attach_cases upper per s4 root i) as [(s5 & E5)|(e & E5)]; rewrite E5; cbn [nbind].
  2:{ exists q, n, root, (d_kind (n_st s root)). split; auto. split; [apply view_Some; auto|].
      assert (Drs : dirat s root = true) by (unfold dirat in Dr |- *; rewrite St2 in Dr; auto). split; auto. intros NR.
      destruct (inv_tree _ _ _ _ _ _ V root Hr Drs) as (t & T1 & T2 & T3). rewrite (h_child _ _ _ T1) in NR. apply (NR_tree _ _ _ (h_rep _ _ _ T1)) in NR as [NR1 NR2].
      assert (Ot : forall x, In x (ids t) -> n_st s4 x = n_st s x) by (intros x Hx; apply N4; intros ->; eapply Fl; rewrite <- T3; eauto).
      destruct (attach_done upper per none s4 ch (i :: L) root i t V4) as (s5 & E6); auto; try (rewrite I4; auto); [right; auto|left; auto| | |congruence].
      - destruct T1. constructor; auto; [rewrite N4; auto|]. eapply rep_ext; eauto.
      - eapply sorted_names; [|exact T2]. intros j Hj. rewrite Ot; auto. }
  destruct (attach_ok upper per none s4 ch (i :: L) root i s5 V4) as (ch' & V5 & [F1 F2 F3 F4] & P5 & O5 & Ch5 & Pr5 & Po5 & _); auto; try (rewrite I4; auto); [right; auto|left; auto|unfold nmof; rewrite I4; auto|].
  exists ch', (i :: L). split; auto. split.
  2:{ intros HB. eapply (attach_bal none s4 ch (i :: L) root i s5 V4); eauto; try (rewrite I4; auto); [right; auto|left; auto|].
      intros x [<-|Hx] Dx; [rewrite I4; constructor|]. assert (x <> i) by (intros ->; auto). unfold dirat in Dx. rewrite N4 in * by auto. destruct (inv_tree _ _ _ _ _ _ V x Hx Dx) as (u & U1 & U2 & U3). rewrite (h_child _ _ _ U1). eapply NoRedRed_ext; [apply (h_rep _ _ _ U1)| |rewrite <- (h_child _ _ _ U1); apply HB; auto].
      intros y Hy. rewrite N4; auto. intros ->. apply (Fl x). rewrite <- U3. auto. }
  pose proof (inv_distinct _ _ _ _ _ _ V) as Dd. pose proof (inv_one_parent _ _ _ _ _ _ V) as Oo. pose proof (inv_noroot _ _ _ _ _ _ V) as Nn.
  assert (Nm5 : forall x, In x L -> nmof s5 x = nmof s x). { intros x Hx. unfold nmof. rewrite (proj1 (F4 x (live_pos _ _ _ _ _ _ _ V Hx))), N4; auto. intros ->. auto. }
  assert (Kn5 : forall x, In x L -> d_kind (n_st s5 x) = d_kind (n_st s x)). { intros x Hx. rewrite (proj2 (F4 x (live_pos _ _ _ _ _ _ _ V Hx))), N4; auto. intros ->. auto. }
  assert (Hi5 : d_name (n_st s5 i) = n /\ d_kind (n_st s5 i) = k). { assert (i <> HEAD) by (unfold HEAD; lia). rewrite (proj1 (F4 i H)), (proj2 (F4 i H)), I4. auto. }
  assert (Nmk : forall b j, In j (ch b) -> nmof s5 j = nmof s j) by (intros b j Hj; apply Nm5; apply (v_sub _ _ _ _ _ _ V) in Hj; tauto).
  assert (Dk5 : distinct (nmof s5) (ch' root)) by (apply (inv_distinct _ _ _ _ _ _ V5)).
  assert (Sm : forall m, m <> n -> List.find (fun j => zlist_eqb (nmof s5 j) m) (ch' root) = List.find (fun j => zlist_eqb (nmof s j) m) (ch root)).
  { intros m Hm. rewrite (find_perm_new (nmof s5) (ch root) (ch' root) i m); auto; [|unfold nmof; intros Q; apply Hm; rewrite <- Q; apply Hi5].
    apply find_ext_in. intros x Hx. rewrite (Nmk root x Hx). auto. }
  assert (Wr : walk (nmof s5) ch' 0 q = Some root) by (eapply (edit_at (nmof s) (nmof s5) ch ch' root q); eauto).
  assert (Wi : walk (nmof s5) ch' 0 (q ++ [n]) = Some i).
  { apply walk_snoc; [apply (inv_distinct _ _ _ _ _ _ V5)|]. exists root. split; auto. split; [eapply Permutation_in; [symmetry; exact P5|left; auto]|apply Hi5]. }
  eapply C_new with (d := (root, d_kind (n_st s root))); eauto.
  - apply view_Some. auto.
  - cbn. apply (inv_isdir s L root Hr). unfold dirat in Dr |- *. rewrite St2 in Dr. auto.
  - intros x k' Q. apply (view_live _ _ _ _ _ _ _ V) in Q. auto.
  - split; [apply view_Some; split; auto; symmetry; apply Hi5|]. intros x Hx. destruct (below_dec (q ++ [n]) x) as [(r & ->)|B].
    + rewrite (proj2 (view_None s ch _)) by (apply walk_none_app; auto). apply view_None. rewrite walk_app, Wi. destruct r as [|m r]; [rewrite app_nil_r in Hx; tauto|]. cbn. rewrite O5, Ci by auto. auto.
    + eapply view_eq; eauto. eapply (edit_other (nmof s) (nmof s5) ch ch' root q n); eauto.
Qed.

(** ** remove, with the entry itself possibly having a stale listing *)
Lemma cut_view : forall X s ch L s' ch' par q j A B, Inv X s ch L -> walk (nmof s) ch 0 q = Some par -> ch par = A ++ j :: B -> ch' par = A ++ B -> (forall i, i <> par -> ch' i = ch i) ->
  (forall x, In x L -> d_name (n_st s' x) = d_name (n_st s x) /\ d_kind (n_st s' x) = d_kind (n_st s x)) -> cut_at (view s ch) (q ++ [nmof s j]) (view s' ch') /\
  (forall r, walk (nmof s') ch' j r = walk (nmof s) ch j r).
Proof.
  intros X s ch L s' ch' par q j A B V Wq E1 E2 Eo Nm.
  pose proof (inv_distinct _ _ _ _ _ _ V) as Dd. pose proof (inv_one_parent _ _ _ _ _ _ V) as Oo. pose proof (inv_noroot _ _ _ _ _ _ V) as Nn.
  assert (Hj : In j (ch par)) by (rewrite E1; apply in_or_app; right; left; auto).
  assert (Nmk : forall b x, In x (ch b) -> nmof s' x = nmof s x) by (intros b x Hx; apply Nm; apply (v_sub _ _ _ _ _ _ V) in Hx; tauto).
  assert (Sub : forall x, In x (A ++ B) -> In x (ch par)) by (intros x Hx; rewrite E1; apply in_app_iff in Hx; apply in_app_iff; cbn; tauto).
  assert (Sm : forall m, m <> nmof s j -> List.find (fun x => zlist_eqb (nmof s' x) m) (ch' par) = List.find (fun x => zlist_eqb (nmof s x) m) (ch par)).
  { intros m Hm. rewrite E2, E1. rewrite <- find_mid by auto. apply find_ext_in. intros x Hx. rewrite (Nmk par x); auto. }
  split; [split|].
  - intros r. apply view_None. rewrite <- app_assoc, walk_app. erewrite (edit_at (nmof s) (nmof s') ch ch' par q); eauto. cbn.
    replace (List.find _ _) with (@None Z); auto. symmetry. apply (find_nokid (nmof s') ch' par). intros x Hx Q. rewrite E2 in Hx. rewrite (Nmk par x (Sub x Hx)) in Q.
    assert (x = j) by (apply (Dd par); auto). subst x. pose proof (inv_ch_nodup _ _ _ _ _ _ V par) as ND. rewrite E1 in ND. apply NoDup_remove_2 in ND. auto.
  - intros x Hx. eapply view_eq; eauto; [|intros; apply Nm; auto]. eapply (edit_other (nmof s) (nmof s') ch ch' par q (nmof s j)); eauto.
  - intros r. eapply (edit_below_root (nmof s) (nmof s') ch ch' par q); eauto.
Qed.

Lemma remove_ok : forall X s ch L p, Inv X s ch L -> clean p -> (forall x, X x -> walk (nmof s) ch 0 p = Some x) ->
  (exists s', remove upper per cap s (text_of p) = Fail s' ValueError /\ Inv X s' ch L /\ only_cache s s' /\
     (blocked (view s ch) p \/ (~ blocked (view s ch) p /\ view s ch p = None) \/ p = [] \/
     (exists i, ~ blocked (view s ch) p /\ view s ch p = Some (i, 1) /\ ch i <> []))) \/
  (exists s' ch' i k, remove upper per cap s (text_of p) = Done s' tt /\ Inv none s' ch' (without L [i]) /\ ~ blocked (view s ch) p /\ view s ch p = Some (i, k) /\ p <> [] /\
     ch i = [] /\ cut_at (view s ch) p (view s' ch') /\ n_free s' = n_free s ++ [i] /\ n_log s' = n_log s ++ (if k =? STREAM then [i] else [])).
Proof.
  intros X s ch L p V C HX. pose proof (inv_distinct _ _ _ _ _ _ V) as Dd. pose proof (inv_one_parent _ _ _ _ _ _ V) as Oo. pose proof (inv_noroot _ _ _ _ _ _ V) as Nn.
  unfold remove.
  destruct (find_ok upper per cap p X s ch L V C) as (s1 & V1 & O1 & _ & [[H1 ->]|(H1 & -> & _)]).
  { intros q n r i -> Hq Hx. apply HX in Hx. assert (q = q ++ n :: r) by (eapply walk_inj; eauto). apply (f_equal (@length _)) in H. rewrite app_length in H. cbn in H. lia. }
  { left. exists s1. split; auto. split; auto. split; auto. left. eapply blocked_iff; eauto. }
  assert (NB : ~ blocked (view s ch) p) by (intros Q; apply H1; eapply blocked_iff; eauto).
  cbn [nbind]. destruct (walk (nmof s) ch 0 p) as [i|] eqn:W.
  2:{ left. exists s1. split; auto. split; auto. split; auto. right; left. split; auto. apply view_None. auto. }
  assert (Hi : In i L) by (eapply (inv_live _ _ _ _ _ _ V); [|exact W]; apply (v_root _ _ _ _ _ _ V)).
  destruct (only_cache_nm _ _ O1) as (Nm1 & St1 & Pa1 & Fr1 & Se1 & Lo1). rewrite St1. cbv zeta.
  destruct (d_kind (n_st s i) =? ROOT) eqn:KR.
  { left. exists s1. split; auto. split; auto. split; auto. right; right; left. assert (i = 0) by (apply (inv_kind_root _ _ _ _ _ _ V i Hi); lia). subst i.
    apply (walk_root (nmof s) ch 0 Dd Nn) in W. tauto. }
  assert (Pn : p <> []). { intros ->. cbn in W. injection W as <-. rewrite (v_k0 _ _ _ _ _ _ V) in KR. discriminate. }
  assert (Cc : dirat s i = true -> d_child (n_st s i) = None -> ch i = []).
  { intros Q1 Q2. destruct (inv_tree _ _ _ _ _ _ V i Hi Q1) as (t & T1 & T2 & T3). rewrite (h_child _ _ _ T1) in Q2. destruct t; [auto|discriminate]. }
  assert (Cc' : dirat s i = true -> d_child (n_st s i) <> None -> ch i <> []).
  { intros Q1 Q2. destruct (inv_tree _ _ _ _ _ _ V i Hi Q1) as (t & T1 & T2 & T3). rewrite (h_child _ _ _ T1) in Q2. rewrite <- T3. destruct t; [tauto|cbn; destruct (ids t1); discriminate]. }
  destruct ((d_kind (n_st s i) =? STORAGE) && match d_child (n_st s i) with Some _ => true | None => false end) eqn:KS.
  { left. exists s1. split; auto. split; auto. split; auto. right; right; right. apply andb_true_iff in KS as [K1 K2]. exists i. assert (Ki : d_kind (n_st s i) = 1) by (unfold STORAGE in K1; lia). split; auto. split; [apply view_Some; auto|].
    apply Cc'; [unfold dirat; rewrite Ki; auto|]. destruct (d_child (n_st s i)); discriminate. }
  right. destruct p as [|n q _] using rev_ind; [tauto|].
  apply (proj1 (walk_snoc _ _ _ _ _ _ Dd)) in W as (par & Wq & Hpar & En).
  assert (Cw : ch i = []).
  { destruct (dirat s i) eqn:Di; [|apply (v_leaf _ _ _ _ _ _ V); intros [_ Q]; congruence]. apply Cc; auto. apply (inv_isdir s L i Hi) in Di. destruct Di as [Di|Di]; [|unfold ROOT in KR; lia].
    rewrite Di in KS. cbn in KS. destruct (d_child (n_st s i)); [discriminate|auto]. }
  assert (Zi : i <> 0) by (intros ->; eapply Nn; eauto).
  assert (Xp : ~ X par). { intros Q. apply HX in Q. injection Q as ->.
    assert (Q2 : walk (nmof s) ch par [nmof s par] = Some par) by (apply walk_one; auto). apply (walk_acyclic (nmof s) ch 0 Dd Oo Nn q) in Q2; auto. discriminate. }
  destruct (detach_ok upper per X s1 ch L par i V1 Hpar Xp) as (s2 & ch' & -> & V2 & [F1 F2 F3 F4] & (A & B & E1 & E2) & E3 & Hl & Hr & _ & Pn2 & Po2 & _). cbn [nbind].
  set (s3 := if d_kind (n_st s i) =? STREAM then free_chain s2 i else s2).
  assert (V3 : Inv X s3 ch' L) by (unfold s3; destruct (d_kind (n_st s i) =? STREAM); auto; apply log_ok; auto).
  assert (Fl : forall x, ~ In i (ch' x)). { intros x Hx. destruct (v_sub _ _ _ _ _ _ V2 _ _ Hx) as (_ & _ & Q & _). congruence. }
  assert (Ci' : ch' i = []). { destruct (Z.eq_dec i par) as [->|N]; [|rewrite E3; auto]. rewrite Cw in Hpar. destruct Hpar. }
  exists (free_dir_entry s3 i), ch', i, (d_kind (n_st s i)). split; [reflexivity|]. split; [|split; [auto|split; [|split; [auto|split; [auto|split; [|split]]]]]].
  - eapply inv_weaken; [apply release_ok; eauto|]. cbn. intros x [Q1 Q2]. apply Q2. apply HX in Q1. congruence.
  - apply view_Some. split; auto. apply walk_snoc; auto. exists par. auto.
  - destruct (free_entry_facts s3 i) as (S3 & _). assert (S3' : n_st s3 = n_st s2) by (unfold s3; destruct (d_kind (n_st s i) =? STREAM); auto). rewrite <- En.
    eapply cut_view; eauto. intros x Hx. rewrite S3, S3'. rewrite <- St1. apply F4. eapply live_pos; eauto.
  - destruct (free_entry_facts s3 i) as (_ & _ & S3 & _). rewrite S3. f_equal. unfold s3. destruct (d_kind (n_st s i) =? STREAM); cbn; rewrite F1, Fr1; auto.
  - destruct (free_entry_facts s3 i) as (_ & _ & _ & _ & S3 & _). rewrite S3. unfold s3. destruct (d_kind (n_st s i) =? STREAM); cbn; rewrite F3, Lo1; auto. rewrite app_nil_r. auto.
Qed.
End Steps.
