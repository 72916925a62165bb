(** Trees, the entries that represent them, and what the rotations do to both. *)
From Verif Require Import Base BaseFacts RBModel.
From Coq Require Import ZArith List Bool Lia Permutation Sorted.
Import ListNotations.
Open Scope Z_scope.
Notation length := List.length.

(** ** Trees *)
Inductive tree : Type := Lf | Nd (c : bool) (l : tree) (i : Z) (r : tree).
(** ids in search order *)
Fixpoint ids (t : tree) : list Z := match t with Lf => [] | Nd _ l i r => ids l ++ i :: ids r end.
Definition rid (t : tree) : option Z := match t with Lf => None | Nd _ _ i _ => Some i end.
Definition tred (t : tree) : bool := match t with Lf => false | Nd c _ _ _ => c end.
(** the entries of [st] form the tree [t] *)
Fixpoint rep (st : store) (t : tree) : Prop :=
  match t with
  | Lf => True
  | Nd c l i r => d_red (st i) = c /\ d_left (st i) = rid l /\ d_right (st i) = rid r /\ rep st l /\ rep st r
  end.

(** the node [i] whose child in direction [d] is [x] and whose other child is [y] *)
Definition nd (d c : bool) (x : tree) (i : Z) (y : tree) : tree := if d then Nd c y i x else Nd c x i y.

Lemma rid_nd : forall d c x i y, rid (nd d c x i y) = Some i.
Proof. destruct d; auto. Qed.
Lemma tred_nd : forall d c x i y, tred (nd d c x i y) = c.
Proof. destruct d; auto. Qed.
Lemma nd_negb : forall d c x i y, nd (negb d) c x i y = nd d c y i x.
Proof. destruct d; auto. Qed.
Lemma Nd_nd : forall d c l i r, Nd c l i r = nd d c (if d then r else l) i (if d then l else r).
Proof. destruct d; auto. Qed.
Lemma rep_nd : forall st d c x i y, rep st (nd d c x i y) <->
  d_red (st i) = c /\ kid st i d = rid x /\ kid st i (negb d) = rid y /\ rep st x /\ rep st y.
Proof. intros st d c x i y. destruct d; cbn; tauto. Qed.
Lemma In_nd : forall j d c x i y, In j (ids (nd d c x i y)) <-> j = i \/ In j (ids x) \/ In j (ids y).
Proof. intros. destruct d; cbn; rewrite in_app_iff; cbn; intuition. Qed.
Lemma perm_nd : forall d c x i y, Permutation (ids (nd d c x i y)) (i :: ids x ++ ids y).
Proof. intros. destruct d; cbn; [symmetry; etransitivity; [apply perm_skip, Permutation_app_comm|]|symmetry]; apply Permutation_middle. Qed.
Lemma NoDup_nd : forall d c x i y, NoDup (ids (nd d c x i y)) <->
  ~ In i (ids x) /\ ~ In i (ids y) /\ NoDup (ids x) /\ NoDup (ids y) /\ (forall j, In j (ids x) -> ~ In j (ids y)).
Proof.
  intros. split.
  - intros H. apply (Permutation_NoDup (perm_nd d c x i y)) in H. inversion H; subst. rewrite in_app_iff in H2.
    apply NoDup_app_iff in H3 as (A & B & C). repeat split; auto.
  - intros (A & B & C & D & E). eapply Permutation_NoDup; [symmetry; apply perm_nd|]. constructor; [rewrite in_app_iff; tauto|].
    apply NoDup_app_iff. repeat split; auto. 
Qed.

(** ** Stores *)
Lemma supd_same : forall st i e, supd st i e i = e.
Proof. intros. unfold supd. rewrite Z.eqb_refl. auto. Qed.
Lemma supd_other : forall st i e j, j <> i -> supd st i e j = st j.
Proof. intros. unfold supd. replace (j =? i) with false by lia. auto. Qed.
Lemma set_kid_other : forall st i d v j, j <> i -> set_kid st i d v j = st j.
Proof. intros. apply supd_other. auto. Qed.
Lemma set_red_other : forall st i b j, j <> i -> set_red st i b j = st j.
Proof. intros. apply supd_other. auto. Qed.
Lemma set_child_other : forall st i v j, j <> i -> set_child st i v j = st j.
Proof. intros. apply supd_other. auto. Qed.
Lemma kid_set_kid : forall st i d v, kid (set_kid st i d v) i d = link_of v.
Proof. intros. unfold set_kid, kid. rewrite supd_same. destruct d; auto. Qed.
Lemma kid_set_kid_neg : forall st i d v, kid (set_kid st i d v) i (negb d) = kid st i (negb d).
Proof. intros. unfold set_kid, kid. rewrite supd_same. destruct d; auto. Qed.
Lemma kid_set_kid_neg' : forall st i d v, kid (set_kid st i (negb d) v) i d = kid st i d.
Proof. intros. unfold set_kid, kid. rewrite supd_same. destruct d; auto. Qed.
Lemma kid_set_kid_other : forall st i d v j b, j <> i -> kid (set_kid st i d v) j b = kid st j b.
Proof. intros. unfold kid. rewrite set_kid_other; auto. Qed.
Lemma red_set_kid : forall st i d v j, d_red (set_kid st i d v j) = d_red (st j).
Proof. intros. unfold set_kid, supd. destruct (j =? i) eqn:E; auto. assert (j = i) by lia. subst. destruct d; auto. Qed.
Lemma kid_set_red : forall st i b j d, kid (set_red st i b) j d = kid st j d.
Proof. intros. unfold set_red, supd, kid. destruct (j =? i) eqn:E; auto. assert (j = i) by lia. subst. auto. Qed.
Lemma red_set_red : forall st i b j, d_red (set_red st i b j) = if j =? i then b else d_red (st j).
Proof. intros. unfold set_red, supd. destruct (j =? i); auto. Qed.
Lemma link_id : forall i, i <> HEAD -> link_of (Some i) = Some i.
Proof. intros. cbn. replace (i =? HEAD) with false by lia. auto. Qed.
Lemma link_rid : forall t, ~ In HEAD (ids t) -> link_of (rid t) = rid t.
Proof. intros [|c l i r] H; cbn [rid]; auto. apply link_id. intros ->. apply H. cbn. apply in_or_app. right. left. auto. Qed.

(** names, kinds and children are never touched *)
Definition keeps (st st' : store) : Prop :=
  forall j, d_name (st' j) = d_name (st j) /\ d_kind (st' j) = d_kind (st j) /\ d_child (st' j) = d_child (st j).
Lemma keeps_refl : forall st, keeps st st.
Proof. intros st j. auto. Qed.
Lemma keeps_trans : forall a b c, keeps a b -> keeps b c -> keeps a c.
Proof. intros a b c H1 H2 j. destruct (H1 j) as (-> & -> & ->) || idtac. destruct (H2 j) as (A & B & C), (H1 j) as (D & E & F). repeat split; congruence. Qed.
Lemma keeps_set_kid : forall st i d v, keeps st (set_kid st i d v).
Proof. intros st i d v j. unfold set_kid, supd. destruct (j =? i) eqn:E; auto. assert (j = i) by lia. subst. destruct d; auto. Qed.
Lemma keeps_set_red : forall st i b, keeps st (set_red st i b).
Proof. intros st i d j. unfold set_red, supd. destruct (j =? i) eqn:E; auto. assert (j = i) by lia. subst. auto. Qed.

Lemma rep_ext : forall st st' t, rep st t -> (forall j, In j (ids t) -> st' j = st j) -> rep st' t.
Proof.
  intros st st' t. induction t as [|c l IHl i r IHr]; cbn; auto. intros (A & B & C & D & E) H.
  rewrite (H i) by (apply in_or_app; right; left; auto). repeat split; auto.
  - apply IHl; auto. intros j Hj. apply H. apply in_or_app. auto.
  - apply IHr; auto. intros j Hj. apply H. apply in_or_app. right. right. auto.
Qed.
Lemma rep_rid : forall st t, rep st t -> is_red st (rid t) = tred t.
Proof. intros st [|c l i r]; cbn; auto. tauto. Qed.

(** recolouring *)
Fixpoint recolor (i : Z) (b : bool) (t : tree) : tree :=
  match t with Lf => Lf | Nd c l j r => Nd (if j =? i then b else c) (recolor i b l) j (recolor i b r) end.
Lemma rid_recolor : forall i b t, rid (recolor i b t) = rid t.
Proof. intros i b [|]; auto. Qed.
Lemma ids_recolor : forall i b t, ids (recolor i b t) = ids t.
Proof. intros i b t. induction t; cbn; congruence. Qed.
Lemma recolor_nd : forall i b d c x j y, recolor i b (nd d c x j y) = nd d (if j =? i then b else c) (recolor i b x) j (recolor i b y).
Proof. intros. destruct d; auto. Qed.
Lemma recolor_out : forall i b t, ~ In i (ids t) -> recolor i b t = t.
Proof.
  intros i b t. induction t as [|c l IHl j r IHr]; cbn; auto. rewrite in_app_iff. cbn. intros H.
  rewrite IHl, IHr by tauto. replace (j =? i) with false by (assert (j <> i) by tauto; lia). auto.
Qed.
Lemma rep_recolor : forall st i b t, rep st t -> rep (set_red st i b) (recolor i b t).
Proof.
  intros st i b t. induction t as [|c l IHl j r IHr]; cbn; auto. intros (A & B & C & D & E). rewrite !rid_recolor.
  rewrite red_set_red, A. pose proof (kid_set_red st i b j false) as K0. pose proof (kid_set_red st i b j true) as K1. cbn in K0, K1.
  rewrite K0, K1. repeat split; auto.
Qed.

(** ** Contexts: the way up from a subtree to the root *)
Record frame : Type := mkf { f_d : bool; f_c : bool; f_i : Z; f_s : tree }.
Definition fill (f : frame) (t : tree) : tree := nd (f_d f) (f_c f) t (f_i f) (f_s f).
Fixpoint plug (k : list frame) (t : tree) : tree := match k with [] => t | f :: k' => plug k' (fill f t) end.
Fixpoint cids (k : list frame) : list Z := match k with [] => [] | f :: k' => f_i f :: ids (f_s f) ++ cids k' end.

Lemma perm_plug : forall k t, Permutation (ids (plug k t)) (ids t ++ cids k).
Proof.
  induction k as [|f k IH]; intros t; cbn; [rewrite app_nil_r; auto|]. rewrite IH. unfold fill. rewrite perm_nd. cbn.
  rewrite <- app_assoc. rewrite <- Permutation_middle. apply perm_skip. auto.
Qed.
Lemma In_plug : forall k t j, In j (ids (plug k t)) <-> In j (ids t) \/ In j (cids k).
Proof. intros. rewrite <- in_app_iff. split; apply Permutation_in; [|symmetry]; apply perm_plug. Qed.
Lemma NoDup_plug : forall k t, NoDup (ids (plug k t)) <-> NoDup (ids t) /\ NoDup (cids k) /\ (forall j, In j (ids t) -> ~ In j (cids k)).
Proof.
  intros. split.
  - intros H. apply (Permutation_NoDup (perm_plug k t)) in H. apply NoDup_app_iff in H as (A & B & C). repeat split; auto.
  - intros (A & B & C). eapply Permutation_NoDup; [symmetry; apply perm_plug|]. apply NoDup_app_iff. repeat split; auto.
Qed.

(** [h] is the link in the hole *)
Fixpoint repc (st : store) (k : list frame) (h : option Z) : Prop :=
  match k with
  | [] => True
  | f :: k' => d_red (st (f_i f)) = f_c f /\ kid st (f_i f) (f_d f) = h /\ kid st (f_i f) (negb (f_d f)) = rid (f_s f) /\ rep st (f_s f) /\ repc st k' (Some (f_i f))
  end.
Lemma rep_plug : forall k st t, rep st (plug k t) <-> repc st k (rid t) /\ rep st t.
Proof.
  induction k as [|f k IH]; intros st t; cbn; [tauto|]. rewrite IH. unfold fill. rewrite rid_nd, rep_nd. tauto.
Qed.
Lemma repc_ext : forall k st st' h, repc st k h -> (forall j, In j (cids k) -> st' j = st j) -> repc st' k h.
Proof.
  induction k as [|f k IH]; intros st st' h; cbn; auto. intros (A & B & C & D & E) H.
  unfold kid in *. rewrite (H (f_i f)) by (left; auto). repeat split; auto.
  - eapply rep_ext; eauto. intros j Hj. apply H. right. apply in_or_app. auto.
  - eapply IH; eauto. intros j Hj. apply H. right. apply in_or_app. auto.
Qed.

(** ** The store holds the whole tree, seen from a subtree *)
Definition at_ (st : store) (k : list frame) (t : tree) : Prop := rep st (plug k t) /\ NoDup (ids (plug k t)).

Lemma at_up : forall st f k t, at_ st (f :: k) t <-> at_ st k (fill f t).
Proof. intros. reflexivity. Qed.
Lemma at_down : forall st k d c x i y, at_ st k (nd d c x i y) <-> at_ st (mkf d c i y :: k) x.
Proof. intros. reflexivity. Qed.
Lemma at_sub : forall st k t, at_ st k t -> rep st t /\ NoDup (ids t).
Proof. intros st k t [A B]. apply rep_plug in A. apply NoDup_plug in B. tauto. Qed.

(** a subtree is replaced by another one with the same entries *)
Lemma at_replace : forall st st' f k t t', at_ st (f :: k) t -> rep st' t' -> Permutation (ids t') (ids t) ->
  (forall j, ~ In j (ids t) -> st' j = st j) -> ~ In HEAD (ids t) -> at_ (set_kid st' (f_i f) (f_d f) (rid t')) (f :: k) t'.
Proof.
  intros st st' f k t t' [A B] R P E H. apply rep_plug in A as [A1 A2]. apply NoDup_plug in B as (B1 & B2 & B3).
  assert (Hf : ~ In (f_i f) (ids t)) by (intros X; apply (B3 _ X); cbn; auto).
  assert (B4 : NoDup (cids k) /\ ~ In (f_i f) (cids k) /\ ~ In (f_i f) (ids (f_s f))).
  { cbn in B2. inversion B2; subst. rewrite in_app_iff in H2. apply NoDup_app_iff in H3. tauto. }
  split.
  - apply rep_plug. cbn in A1. destruct A1 as (C1 & C2 & C3 & C4 & C5). split.
    + cbn. rewrite kid_set_kid, kid_set_kid_neg, red_set_kid. unfold kid in *. rewrite (E (f_i f)) by auto.
      split; auto. split. { apply link_rid. intros X. apply H. eapply Permutation_in; eauto. }
      split; auto. split.
      * eapply rep_ext; [exact C4|]. intros j Hj. rewrite set_kid_other by (intros ->; tauto). apply E. intros X. apply (B3 _ X). cbn. right. apply in_or_app. auto.
      * eapply repc_ext; [exact C5|]. intros j Hj. rewrite set_kid_other by (intros ->; tauto). apply E. intros X. apply (B3 _ X). cbn. right. apply in_or_app. auto.
    + eapply rep_ext; [exact R|]. intros j Hj. apply set_kid_other. intros ->. apply Hf. eapply Permutation_in; eauto.
  - apply NoDup_plug. split; [eapply Permutation_NoDup; [symmetry; exact P|auto]|]. split; auto. intros j Hj. apply B3. eapply Permutation_in; eauto.
Qed.

Lemma at_inner : forall st st' k t t', at_ st k t -> rep st' t' -> Permutation (ids t') (ids t) -> rid t' = rid t ->
  (forall j, ~ In j (ids t) -> st' j = st j) -> at_ st' k t'.
Proof.
  intros st st' k t t' [A B] R P Er E. apply rep_plug in A as [A1 A2]. apply NoDup_plug in B as (B1 & B2 & B3). split.
  - apply rep_plug. split; auto. rewrite Er. eapply repc_ext; [exact A1|]. intros j Hj. apply E. intros X. apply (B3 _ X). auto.
  - apply NoDup_plug. split; [eapply Permutation_NoDup; [symmetry; exact P|auto]|]. split; auto. intros j Hj. apply B3. eapply Permutation_in; eauto.
Qed.

(** ** Rotations *)
Lemma single_ok : forall st d c A i c2 B s C, rep st (nd d c A i (nd d c2 B s C)) -> NoDup (ids (nd d c A i (nd d c2 B s C))) ->
  ~ In HEAD (ids (nd d c A i (nd d c2 B s C))) ->
  exists st', jsw_single st i d = Ok (st', s) /\ rep st' (nd d false (nd d true A i B) s C) /\ keeps st st' /\
    (forall j, j <> i -> j <> s -> st' j = st j).
Proof.
  intros st d c A i c2 B s C R ND H. apply rep_nd in R as (R1 & R2 & R3 & RA & R). apply rep_nd in R as (R4 & R5 & R6 & RB & RC).
  apply NoDup_nd in ND as (N1 & N2 & N3 & N4 & N5). apply NoDup_nd in N4 as (N6 & N7 & N8 & N9 & N10).
  rewrite In_nd in N2. rewrite !In_nd in H. rewrite rid_nd in R3.
  assert (Nis : i <> s) by tauto. assert (Hs : s <> HEAD) by (intros ->; tauto). assert (Hi : i <> HEAD) by (intros ->; tauto).
  unfold jsw_single. rewrite R3. cbn [deref bind]. eexists. split; [reflexivity|]. split; [|split].
  - assert (X : forall j, j <> i -> j <> s -> set_red (set_red (set_kid (set_kid st i (negb d) (kid st s d)) s d (Some i)) i true) s false j = st j).
    { intros j J1 J2. rewrite !set_red_other, !set_kid_other; auto. }
    apply rep_nd. rewrite rid_nd. rewrite !kid_set_red. rewrite red_set_red, Z.eqb_refl. split; auto.
    rewrite kid_set_kid, kid_set_kid_neg. rewrite link_id by auto. split; auto.
    rewrite kid_set_kid_other by auto. split; auto. split.
    + apply rep_nd. rewrite !red_set_red, !kid_set_red. replace (i =? s) with false by lia. rewrite Z.eqb_refl. split; auto.
      rewrite !(kid_set_kid_other _ s) by auto. rewrite kid_set_kid_neg', kid_set_kid. split; auto. split.
      { rewrite R5. apply link_rid. tauto. }
      split; (eapply rep_ext; [eassumption|]; intros j Hj; apply X; intros ->); auto.
      apply (N5 _ Hj). apply In_nd. auto.
    + eapply rep_ext; [eassumption|]; intros j Hj; apply X; intros ->; tauto.
  - eapply keeps_trans; [|apply keeps_set_red]. eapply keeps_trans; [|apply keeps_set_red]. eapply keeps_trans; [|apply keeps_set_kid]. apply keeps_set_kid.
  - intros j J1 J2. rewrite !set_red_other, !set_kid_other; auto.
Qed.

Lemma ids_single : forall d c A i c2 B s C b b2, ids (nd d b (nd d b2 A i B) s C) = ids (nd d c A i (nd d c2 B s C)).
Proof. intros. destruct d; cbn; rewrite <- ?app_assoc; auto. Qed.
Lemma ids_double : forall d A i B n C o E c1 c2 c3 b1 b2 b3, ids (nd d b1 (nd d b2 A i B) n (nd d b3 C o E)) = ids (nd d c1 A i (nd d c2 (nd d c3 B n C) o E)).
Proof. intros. destruct d; cbn; repeat (rewrite <- ?app_assoc; cbn); auto. Qed.

Lemma double_ok : forall st d c A i c2 c3 B n C o E, let t := nd d c A i (nd d c2 (nd d c3 B n C) o E) in
  rep st t -> NoDup (ids t) -> ~ In HEAD (ids t) ->
  exists st', jsw_double st i d = Ok (st', n) /\ rep st' (nd d false (nd d true A i B) n (nd d true C o E)) /\ keeps st st' /\
    (forall j, ~ In j (ids t) -> st' j = st j).
Proof.
  intros st d c A i c2 c3 B n C o E t R ND H. pose proof R as R0. unfold t in R, ND, H. apply rep_nd in R as (R1 & R2 & R3 & RA & R).
  unfold jsw_double. rewrite R3, rid_nd. cbn [deref bind].
  pose proof ND as ND0. apply NoDup_nd in ND as (N1 & N2 & N3 & N4 & N5).
  set (o1 := nd d c2 (nd d c3 B n C) o E) in *.
  assert (Eo : o1 = nd (negb d) c2 E o (nd (negb d) c3 C n B)) by (unfold o1; rewrite !nd_negb; auto).
  rewrite Eo in R. destruct (single_ok _ _ _ _ _ _ _ _ _ R) as (st1 & E1 & R' & K1 & F1).
  { rewrite <- Eo. auto. } { rewrite <- Eo. intros X. apply H. apply In_nd. auto. }
  rewrite !nd_negb in R'. rewrite E1. cbn [bind]. clear E1.
  assert (Ho : forall j, In j (ids (nd d false B n (nd d true C o E))) <-> In j (ids o1)) by (intros; unfold o1; rewrite !In_nd; tauto).
  assert (F2 : forall j, ~ In j (ids o1) -> st1 j = st j) by (intros j Hj; apply F1; intros ->; apply Hj; unfold o1; rewrite !In_nd; tauto).
  assert (R2' : rep (set_kid st1 i (negb d) (Some n)) (nd d c A i (nd d false B n (nd d true C o E)))).
  { apply rep_nd. rewrite red_set_kid, kid_set_kid_neg', kid_set_kid, rid_nd. unfold kid. rewrite F2 by auto. split; auto. split; auto.
    split. { apply link_id. intros ->. apply H. apply In_nd. right. right. apply Ho. rewrite In_nd. auto. }
    split; (eapply rep_ext; [eassumption|]; intros j Hj; rewrite set_kid_other).
    - apply F2. auto.
    - intros ->. auto.
    - auto.
    - intros ->. apply N2. apply Ho. auto. }
  destruct (single_ok _ _ _ _ _ _ _ _ _ R2') as (st2 & E2 & R3' & K2 & F3).
  { apply NoDup_nd. unfold o1 in *. repeat (split; auto).
    - rewrite Ho. auto.
    - rewrite (ids_single (negb d) c2 E o c3 C n B false true) || idtac. revert N4. rewrite <- !(nd_negb d) . intros N4. rewrite ids_single with (c := c2) (c2 := c3). auto.
    - intros j Hj X. apply (N5 _ Hj). apply Ho. auto. }
  { rewrite In_nd, Ho. rewrite In_nd in H. auto. }
  exists st2. split; auto. split; auto. split.
  - eapply keeps_trans; [exact K1|]. eapply keeps_trans; [apply keeps_set_kid|exact K2].
  - intros j Hj. unfold t in Hj. rewrite In_nd in Hj. rewrite F3.
    + rewrite set_kid_other by tauto. apply F2. tauto.
    + tauto.
    + intros ->. apply Hj. right. right. apply Ho. rewrite In_nd. auto.
Qed.
