(** Insertion into a sibling tree of any colouring: when it succeeds it is right. *)
From Coq Require Import ZArith List Bool Lia Sorting.Permutation Sorting.Sorted.
Import ListNotations.
From Verif Require Import Base BaseFacts RBModel RBTree RBOrder RBInsert.
Open Scope Z_scope.
Notation length := List.length.

Section Any.
Variable upper : list Z -> list Z.
Notation ent_lt := (ent_lt upper). Notation lo := (lo upper). Notation dirof := (dirof upper).
Variables (st0 : store) (e : Z) (L0 : list Z).
Notation dn := (RBInsert.down upper st0 e). Notation aw := (RBInsert.away upper st0 e).

Record gen (st : store) (k : list frame) (t : tree) (L : list Z) : Prop := {
  n_at : at_ st k t; n_hd : hd k; n_fits : fits upper st0 e k; n_ids : ids (plug k t) = L;
  n_keeps : keeps st0 st; n_frame : forall j, j <> e -> ~ In j L0 -> st j = st0 j;
  n_e : ~ In e L -> st e = st0 e;
  n_L : (L = L0 /\ ~ In e L) \/ (forall j, In j L <-> j = e \/ In j L0) }.

Definition QI (v : ivars) (k : list frame) : Prop :=
  match k with
  | [] => False
  | [_] => i_p v = None /\ i_gp v = None /\ i_ggp v = Some HEAD
  | [f0; f1] => i_p v = Some (f_i f0) /\ i_dir v = f_d f0 /\ ((i_gp v = None /\ i_ggp v = Some HEAD) \/ (f_c f0 = false /\ i_gp v = Some (f_i f1) /\ i_ggp v = None))
  | f0 :: f1 :: f2 :: k3 => i_p v = Some (f_i f0) /\ i_dir v = f_d f0 /\ i_gp v = Some (f_i f1) /\ i_ggp v = Some (f_i f2) /\
      (f_c f0 = true -> i_last v = f_d f1) /\ (f_c f0 = true -> match k3 with f3 :: _ => i_gggp v = Some (f_i f3) | [] => True end)
  end.
Definition QP (v : ivars) (k : list frame) (c : bool) : Prop :=
  match k with
  | [] => False
  | [_] => (i_p v = None /\ i_gp v = None /\ i_ggp v = Some HEAD) \/ (c = false /\ i_p v = Some HEAD /\ i_gp v = None /\ i_ggp v = None)
  | f0 :: f1 :: k2 => i_p v = Some (f_i f0) /\ (c = true -> i_dir v = f_d f0) /\
      ((k2 = [] /\ i_gp v = None /\ i_ggp v = Some HEAD) \/
       (i_gp v = Some (f_i f1) /\ (c = true -> match k2 with f2 :: _ => i_ggp v = Some (f_i f2) \/ (i_ggp v = None /\ i_gggp v = Some (f_i f2)) | [] => True end)))
  end.
Lemma QI_QP : forall v k c, QI v k -> QP v k c.
Proof.
  intros v [|f0 [|f1 [|f2 k3]]] c; cbn; auto.
  - intros (A & B & [[C D]|[C [D E]]]); repeat split; auto.
  - intros (A & B & C & D & E & F). repeat split; auto.
Qed.
Lemma ent_lt_gen : forall st k t L i j, gen st k t L -> ent_lt st i j = ent_lt st0 i j.
Proof. intros. apply ent_lt_keeps. eapply n_keeps; eauto. Qed.

Lemma down_any : forall st k c l x r v L v', gen st k (Nd c l x r) L -> QP v k c -> x <> HEAD -> ins_down upper st e x v = Ok v' ->
  let k' := mkf (dirof st0 e x) c x (aw (Nd c l x r)) :: k in gen st k' (dn (Nd c l x r)) L /\ i_node v' = rid (dn (Nd c l x r)) /\ QI v' k'.
Proof.
  intros st k c l x r v L v' G HP Hx E. set (t := Nd c l x r) in *. pose proof G as [Ga Gh Gf Gi Gk Gfr Ge GL].
  assert (Et : t = nd (dirof st0 e x) c (dn t) x (aw t)) by apply Nd_down.
  assert (G' : gen st (mkf (dirof st0 e x) c x (aw t) :: k) (dn t) L).
  { rewrite Et in Ga, Gi. constructor; auto; constructor; auto. }
  assert (K : kid st x (dirof st0 e x) = rid (dn t)) by (apply (at_kid _ _ _ _ (n_at _ _ _ _ G'))).
  unfold ins_down in E. rewrite (ent_lt_gen _ _ _ _ e x G) in E. fold (dirof st0 e x) in E.
  repeat match type of E with (if ?b then _ else _) = _ => destruct b; [|discriminate] end. injection E as <-.
  split; [exact G'|]. split; [exact K|].
  destruct k as [|f0 [|f1 k2]]; cbn in HP; [tauto| |].
  - rewrite (hd_one _ Gh) in *. cbn. split; auto. split; auto.
    destruct HP as [(-> & -> & ->)|(-> & -> & -> & ->)]; [left|right]; auto.
  - cbn. destruct HP as (P1 & P2 & P3). rewrite P1. split; auto. split; auto. split; auto.
    destruct P3 as [(-> & -> & ->)|(-> & P4)].
    + destruct (hd_two _ _ _ Gh) as [_ G2]. rewrite (hd_one _ G2) in *. cbn. auto.
    + split; auto. split; auto. intros E. specialize (P4 E). destruct k2 as [|f2 k3]; auto. destruct P4 as [-> | (-> & ->)]; auto.
Qed.

Lemma gen_replace : forall st st' f k t t' L, gen st (f :: k) t L -> rep st' t' -> ids t' = ids t -> keeps st st' ->
  (forall j, ~ In j (ids t) -> st' j = st j) -> gen (set_kid st' (f_i f) (f_d f) (rid t')) (f :: k) t' L.
Proof.
  intros st st' f k t t' L [Ga Gh Gf Gi Gk Gfr Ge GL] R I K E.
  assert (Out : forall j, ~ In j L -> set_kid st' (f_i f) (f_d f) (rid t') j = st j).
  { intros j Hj. rewrite <- Gi in Hj. rewrite In_plug in Hj. rewrite set_kid_other; [apply E; tauto|]. intros ->. apply Hj. right. left. auto. }
  constructor; auto.
  - eapply at_replace; eauto; [rewrite I; auto|]. eapply at_HEAD; eauto.
  - rewrite <- Gi. apply plug_ids. auto.
  - eapply keeps_trans; [exact Gk|]. eapply keeps_trans; [exact K|]. apply keeps_set_kid.
  - intros j J1 J2. rewrite Out; auto. intros X. destruct GL as [[-> _]|GL]; auto. apply GL in X. tauto.
  - intros X. rewrite Out; auto.
Qed.
Lemma gen_up : forall st f k t L, gen st (f :: k) t L -> hd k -> gen st k (fill f t) L.
Proof. intros st f k t L [A B C D E F G H] X. constructor; auto. inversion C; auto. Qed.
Lemma gen_in : forall st k d c x i y L, gen st k (nd d c x i y) L -> i <> HEAD -> d = negb (ent_lt st0 e i) -> gen st (mkf d c i y :: k) x L.
Proof. intros st k d c x i y L [A B C D E F G H] X Y. constructor; auto; constructor; auto. Qed.

Lemma any_single : forall st f0 f1 f2 k3 t L, gen st (f0 :: f1 :: f2 :: k3) t L -> f_d f0 = f_d f1 ->
  exists st1, jsw_single st (f_i f1) (negb (f_d f1)) = Ok (st1, f_i f0) /\
    gen (set_kid st1 (f_i f2) (f_d f2) (Some (f_i f0))) (mkf (f_d f1) false (f_i f0) (nd (negb (f_d f1)) true (f_s f1) (f_i f1) (f_s f0)) :: f2 :: k3) t L.
Proof.
  intros st [d0 c0 p sp] [d1 c1 g u] f2 k3 t L G Ed. cbn [f_c f_s f_d f_i] in *. subst d0.
  pose proof (n_hd _ _ _ _ G) as Gh. destruct (hd_two _ _ _ Gh) as [Hp H1]. destruct (hd_two _ _ _ H1) as [Hg H2]. cbn [f_i] in Hp, Hg.
  pose proof (n_fits _ _ _ _ G) as Gf. apply Forall_cons_iff in Gf as [[_ Fp] _]. cbn [f_i f_d] in Fp.
  pose proof (gen_up _ _ _ _ _ (gen_up _ _ _ _ _ G H1) H2) as GT. unfold fill in GT. cbn [f_c f_s f_d f_i] in GT.
  set (T := nd d1 c1 (nd d1 c0 t p sp) g u) in *.
  assert (ET : T = nd (negb d1) c1 u g (nd (negb d1) c0 sp p t)) by (unfold T; rewrite !nd_negb; auto).
  destruct (at_sub _ _ _ (n_at _ _ _ _ GT)) as [RT ND]. pose proof (at_HEAD _ _ _ (n_at _ _ _ _ GT) H2) as NH. rewrite ET in RT, ND, NH.
  destruct (single_ok _ _ _ _ _ _ _ _ _ RT ND NH) as (st1 & J & R1 & K1 & O1).
  exists st1. split; [exact J|].
  set (T' := nd (negb d1) false (nd (negb d1) true u g sp) p t) in *.
  assert (X : gen (set_kid st1 (f_i f2) (f_d f2) (rid T')) (f2 :: k3) T' L).
  { eapply gen_replace; [exact GT|exact R1| |exact K1|].
    - unfold T'. rewrite ET. apply ids_single.
    - intros j Hj. apply O1; intros ->; apply Hj; unfold T; rewrite !In_nd; auto. }
  unfold T' in X at 1. rewrite rid_nd in X. unfold T' in X. rewrite nd_negb in X. apply gen_in in X; auto.
Qed.

Lemma any_double : forall st f0 f1 f2 k3 c a x b L, let d := negb (f_d f1) in
  gen st (f0 :: f1 :: f2 :: k3) (nd d c b x a) L -> f_d f0 = d ->
  exists st1, jsw_double st (f_i f1) d = Ok (st1, x) /\
    gen (set_kid st1 (f_i f2) (f_d f2) (Some x)) (f2 :: k3) (nd d false (nd d true (f_s f1) (f_i f1) b) x (nd d true a (f_i f0) (f_s f0))) L.
Proof.
  intros st [d0 c0 p sp] [d1 c1 g u] f2 k3 c a x b L d G Ed. cbn [f_c f_s f_d f_i] in *. subst d0.
  pose proof (n_hd _ _ _ _ G) as Gh. destruct (hd_two _ _ _ Gh) as [Hp H1]. destruct (hd_two _ _ _ H1) as [Hg H2]. cbn [f_i] in Hp, Hg.
  pose proof (gen_up _ _ _ _ _ (gen_up _ _ _ _ _ G H1) H2) as GT. unfold fill in GT. cbn [f_c f_s f_d f_i] in GT.
  set (t := nd d c b x a) in *. set (T := nd d1 c1 (nd d c0 t p sp) g u) in *.
  assert (ET : T = nd d c1 u g (nd d c0 t p sp)) by (unfold T, d; rewrite (nd_negb d1 c1); auto).
  destruct (at_sub _ _ _ (n_at _ _ _ _ GT)) as [RT ND]. pose proof (at_HEAD _ _ _ (n_at _ _ _ _ GT) H2) as NH. rewrite ET in RT, ND, NH.
  destruct (double_ok _ _ _ _ _ _ _ _ _ _ _ _ RT ND NH) as (st1 & J & R1 & K1 & O1).
  exists st1. split; [exact J|].
  set (T' := nd d false (nd d true u g b) x (nd d true a p sp)) in *.
  replace (Some x) with (rid T') by (unfold T'; apply rid_nd).
  eapply gen_replace; [exact GT|exact R1| |exact K1|].
  - unfold T'. rewrite ET. apply ids_double.
  - intros j Hj. apply O1. fold t. rewrite <- ET. auto.
Qed.

Lemma fix_any : forall st k c a x b v L st2 v2, gen st k (Nd c a x b) L -> QI v k -> ins_fix st x v = Ok (st2, v2) ->
  exists k2 t2, gen st2 k2 t2 L /\ rid t2 = Some x /\ QP v2 k2 (tred t2).
Proof.
  intros st k c a x b v L st2 v2 G HP E. set (t1 := Nd c a x b) in *.
  pose proof (n_at _ _ _ _ G) as Ga. pose proof (n_hd _ _ _ _ G) as Gh. destruct (at_sub _ _ _ Ga) as [Rt _].
  assert (Rx : is_red st (Some x) = c) by (rewrite (is_red_rep _ _ _ Rt eq_refl); auto).
  unfold ins_fix in E. rewrite Rx in E.
  destruct (c && is_red st (i_p v)) eqn:Q.
  2:{ injection E as <- <-. exists k, t1. split; auto. split; auto. apply QI_QP. auto. }
  apply andb_true_iff in Q as [-> Rp].
  destruct k as [|f0 [|f1 k2]]; [destruct HP| |].
  { destruct HP as (Ep & _). rewrite Ep in Rp. discriminate. }
  assert (Ep : i_p v = Some (f_i f0)) by (destruct k2; apply HP).
  destruct (hd_two _ _ _ Gh) as [Hp H1].
  assert (Ec : f_c f0 = true). { rewrite <- Rp, Ep. cbn. symmetry. apply (at_kid _ _ _ _ Ga). }
  rewrite Ep in E. cbn [deref bind] in E.
  destruct k2 as [|f2 k3].
  { destruct HP as (_ & _ & [[Eg Et]|[X _]]); [|congruence]. rewrite Eg, Et in E. cbn [deref bind] in E.
    destruct (same (kid st HEAD false) None); [discriminate|]. destruct (same (kid st HEAD true) None); discriminate. }
  destruct (hd_two _ _ _ H1) as [Hg H2].
  destruct HP as (_ & Edir & Egp & Eggp & Elast & Egggp). specialize (Elast Ec). specialize (Egggp Ec).
  rewrite Eggp, Egp in E. cbn [deref bind] in E.
  assert (D2 := dir_ok st f2 k3 (fill f1 (fill f0 t1)) (f_i f1) Ga (rid_nd _ _ _ _ _)). rewrite D2 in E. cbn [bind] in E. rewrite Elast in E.
  destruct (at_kid _ _ _ _ Ga) as (K1 & K2 & _). pose proof (at_other _ _ _ _ _ Ga eq_refl) as No.
  destruct (bool_dec (f_d f0) (f_d f1)) as [Ed|Ed].
  + assert (Ex : same (Some x) (kid st (f_i f0) (f_d f1)) = true) by (rewrite <- Ed, K1; apply same_refl). rewrite Ex in E.
    destruct (any_single _ _ _ _ _ _ _ G Ed) as (st1 & J & G1). rewrite J in E. cbn [bind] in E. injection E as <- <-.
    eexists _, t1. split; [exact G1|]. split; auto.
    cbn. split; auto. split; [intros _; congruence|]. right. split; auto. intros _. destruct k3; auto.
  + assert (Ed' : f_d f0 = negb (f_d f1)) by (destruct (f_d f0), (f_d f1); auto; tauto).
    assert (Ex : same (Some x) (kid st (f_i f0) (f_d f1)) = false).
    { replace (f_d f1) with (negb (f_d f0)) by (rewrite Ed', negb_involutive; auto). rewrite K2.
      destruct (same (Some x) (rid (f_s f0))) eqn:F; auto. apply same_iff in F. symmetry in F. tauto. }
    rewrite Ex in E. replace (same (Some x) (kid st (f_i f0) (negb (f_d f1)))) with true in E by (rewrite <- Ed', K1; symmetry; apply same_refl).
    set (d := negb (f_d f1)) in *.
    assert (Et : t1 = nd d true (if d then b else a) x (if d then a else b)) by apply Nd_nd.
    set (b' := if d then b else a) in *. set (a' := if d then a else b) in *. rewrite Et in G.
    destruct (any_double _ _ _ _ _ _ _ _ _ _ G Ed') as (st1 & J & G1). fold d in J, G1. rewrite J in E. cbn [bind] in E. injection E as <- <-.
    set (t2 := nd d false (nd d true (f_s f1) (f_i f1) b') x (nd d true a' (f_i f0) (f_s f0))) in *.
    exists (f2 :: k3), t2. split; [exact G1|]. split; [apply rid_nd|].
    assert (Tt : tred t2 = false) by apply tred_nd. rewrite Tt. destruct k3 as [|f3 k4].
    { rewrite (hd_one _ H2) in *. cbn. auto. }
    destruct (hd_two _ _ _ H2) as [Hn2 _]. cbn. replace (f_i f2 =? HEAD) with false by lia.
    split; auto. split; [discriminate|]. right. split; auto. discriminate.
Qed.

Hypothesis He : e <> HEAD.
Hypothesis HeL : ~ In e L0.
Hypothesis HL : StronglySorted (lo st0) L0.
Hypothesis Hap : forall j, In j L0 -> apart upper st0 e j.
Hypothesis Hre : rep st0 (Nd true Lf e Lf).

Definition done_any (st' : store) : Prop := exists t', at_ st' [Hf] t' /\ keeps st0 st' /\
  (forall j, j <> e -> ~ In j L0 -> st' j = st0 j) /\
  exists A B, L0 = A ++ B /\ HEAD :: ids t' = A ++ e :: B /\ Forall (fun j => lo st0 j e) A /\ Forall (fun j => lo st0 e j) B.

Lemma hd_plug_any : forall k t, hd k -> exists t', plug k t = Nd true Lf HEAD t'.
Proof. intros k t H. revert t. induction H as [|f k Hf H IH]; intros t; cbn; [exists t; auto|apply IH]. Qed.

Lemma loop_any : forall n st v k t st', gen st k t L0 -> i_node v = rid t -> QI v k -> ins_loop upper n st e v = Ok st' -> done_any st'.
Proof.
  induction n as [|n IH]; intros st v k t st' G En HP E; [discriminate|].
  pose proof G as [Ga Gh Gf Gi Gk Gfr Ge GL]. cbn [ins_loop] in E. destruct t as [|c l x r].
  - destruct k as [|f0 [|f1 k2]]; [destruct HP| |].
    { destruct HP as (Ep & _). unfold ins_node in E. rewrite En, Ep in E. discriminate. }
    assert (Ep : i_p v = Some (f_i f0) /\ i_dir v = f_d f0) by (destruct k2; cbn in HP; tauto). destruct Ep as [Ep Ed].
    set (k := f0 :: f1 :: k2) in *.
    assert (Ecut : L0 = pre k ++ post k) by (rewrite <- Gi, ids_plug; auto).
    assert (Ne : ~ In e (cids k)) by (intros X; apply HeL; rewrite <- Gi, In_plug; auto).
    unfold ins_node in E. rewrite En, Ep, Ed in E. cbn [rid deref bind] in E.
    assert (Re : rep st (Nd true Lf e Lf)) by (eapply rep_ext; [exact Hre|]; intros j [<-|[]]; auto).
    pose proof (at_insert _ _ _ _ Ga Re Ne He) as Ga1.
    assert (G1 : gen (set_kid st (f_i f0) (f_d f0) (Some e)) k (Nd true Lf e Lf) (pre k ++ e :: post k)).
    { constructor; auto.
      - rewrite ids_plug. auto.
      - eapply keeps_trans; [exact Gk|apply keeps_set_kid].
      - intros j J1 J2. rewrite set_kid_other; auto. intros ->. apply J2. rewrite <- Gi, In_plug. right. left. auto.
      - intros X. exfalso. apply X. apply in_or_app. right. left. auto.
      - right. intros j. rewrite Ecut, !in_app_iff. cbn. intuition. }
    destruct (ins_fix (set_kid st (f_i f0) (f_d f0) (Some e)) e v) as [[st2 v2]|] eqn:F; [|discriminate]. cbn [bind] in E. rewrite Z.eqb_refl in E. injection E as <-.
    destruct (fix_any _ _ _ _ _ _ _ _ _ _ G1 HP F) as (k3 & t2 & G2 & _).
    destruct G2 as [Ga2 Gh2 Gf2 Gi2 Gk2 Gfr2 Ge2 GL2].
    destruct (hd_plug_any _ t2 Gh2) as (t' & E').
    exists t'. split; [unfold at_ in *; change (plug [Hf] t') with (Nd true Lf HEAD t'); rewrite <- E'; auto|]. split; auto. split; auto.
    exists (pre k), (post k). split; auto. split; [change (HEAD :: ids t') with (ids (Nd true Lf HEAD t')); rewrite <- E'; auto|].
    apply (fits_cut upper k st0 e Lf); auto. { rewrite Gi. auto. } intros j Hj. apply Hap. rewrite <- Gi, In_plug. auto.
  - assert (Hx : In x L0) by (rewrite <- Gi, In_plug; left; cbn; apply in_or_app; right; left; auto).
    assert (Nx : x <> e) by (intros ->; tauto).
    assert (NH : x <> HEAD) by (intros ->; apply (at_HEAD _ _ _ Ga Gh); cbn; apply in_or_app; right; left; auto).
    assert (Nxe : (x =? e) = false) by lia.
    destruct (at_sub _ _ _ Ga) as [Rt _]. pose proof Rt as (R1 & R2 & R3 & R4 & R5).
    assert (IN : exists st1 c1 l1 r1, ins_node st e v = Ok (st1, x) /\ gen st1 k (Nd c1 l1 x r1) L0).
    { destruct (tred l && tred r) eqn:Fl.
      - destruct l as [|cl ll li lr]; [discriminate|]. destruct r as [|cr rl ri rr]; [cbn in Fl; rewrite andb_false_r in Fl; discriminate Fl|]. cbn in Fl. apply andb_prop in Fl as [-> ->].
        cbn [rid] in En, R2, R3. exists (set_red (set_red (set_red st x true) li false) ri false), true, (Nd false ll li lr), (Nd false rl ri rr). split.
        + unfold ins_node. rewrite En. cbn. rewrite R2, R3. cbn in R4, R5. destruct R4 as (-> & _), R5 as (-> & _). auto.
        + pose proof (flip_ok upper L0 st k true ll li lr x true rl ri rr c Ga) as Ga1.
          set (st1 := set_red (set_red (set_red st x true) li false) ri false) in *.
          assert (Hli : In li L0 /\ In ri L0). { rewrite <- Gi, !In_plug. cbn. rewrite !in_app_iff. cbn. rewrite !in_app_iff. cbn. auto 10. } destruct Hli as [Hli Hri].
          assert (Out : forall j, ~ In j L0 -> st1 j = st j) by (intros j Hj; unfold st1; rewrite !set_red_other; auto; intros ->; tauto).
          constructor; auto.
          * rewrite <- Gi. apply plug_ids. auto.
          * eapply keeps_trans; [exact Gk|]. repeat (eapply keeps_trans; [|apply keeps_set_red]). apply keeps_refl.
          * intros j J1 J2. rewrite Out; auto.
          * intros X. rewrite Out; auto.
      - exists st, c, l, r. split; auto. unfold ins_node. rewrite En. cbn [rid kid]. rewrite R2, R3. pose proof (rep_rid _ _ R4) as Q1. pose proof (rep_rid _ _ R5) as Q2.
        destruct l as [|cl ll li lr]; [auto|]. destruct r as [|cr rl ri rr]; [auto|]. cbn in Q1, Q2, Fl |- *. rewrite Q1, Q2, Fl. auto. }
    destruct IN as (st1 & c1 & l1 & r1 & IN & G1). rewrite IN in E. cbn [bind] in E.
    destruct (ins_fix st1 x v) as [[st2 v2]|] eqn:F; [|discriminate]. cbn [bind] in E. rewrite Nxe in E.
    destruct (fix_any _ _ _ _ _ _ _ _ _ _ G1 HP F) as (k2 & t2 & G2 & E2 & P2). destruct t2 as [|c2 l2 x2 r2]; [discriminate|]. injection E2 as ->.
    destruct (ins_down upper st2 e x v2) as [v3|] eqn:F3; [|discriminate]. cbn [bind] in E.
    destruct (down_any _ _ _ _ _ _ _ _ _ G2 P2 NH F3) as (G3 & N3 & Q3). eapply IH; eauto.
Qed.
End Any.

(** what adding [e] to the children [t] of [self] may change *)
Record put_in (upper : list Z -> list Z) (st : store) (self e : Z) (t : tree) (st' : store) (t' : tree) : Prop := {
  pi_holds : holds st' self t'; pi_perm : Permutation (ids t') (e :: ids t); pi_sorted : sorted upper st' (ids t');
  pi_root : tred t' = false;
  pi_names : forall j, j <> HEAD -> d_name (st' j) = d_name (st j) /\ d_kind (st' j) = d_kind (st j);
  pi_childs : forall j, j <> HEAD -> j <> self -> d_child (st' j) = d_child (st j);
  pi_frame : forall j, j <> HEAD -> j <> self -> j <> e -> ~ In j (ids t) -> st' j = st j;
  pi_self : st' self = set_child st self (rid t') self }.

Lemma added_put_in : forall upper st self e t st' t', added upper st self e t st' t' -> put_in upper st self e t st' t'.
Proof. intros upper st self e t st' t' []. constructor; auto. Qed.

Lemma insert_any : forall upper st self e maxn t st', holds st self t -> sorted upper st (ids t) ->
  e <> HEAD -> e <> self -> ~ In e (ids t) -> d_left (st e) = None -> d_right (st e) = None ->
  (forall j, In j (ids t) -> name_eq upper (d_name (st e)) (d_name (st j)) = false) ->
  insert upper st self e maxn = Ok st' -> exists t', put_in upper st self e t st' t'.
Proof.
  intros upper st self e maxn t st' [Hc Hr Hn Hs HH Hp] So He Hes Het El Er Ha I.
  unfold insert in I. set (st1 := set_red st e true) in *.
  assert (E1 : d_child (st1 self) = rid t) by (unfold st1; rewrite set_red_other, Hc; auto). rewrite E1 in I.
  destruct (rid t) as [x|] eqn:Et1; [|discriminate].
  set (st2 := supd (set_child st1 self None) HEAD (new_head (Some x))) in *.
  assert (S2 : forall j, j <> HEAD -> j <> self -> j <> e -> st2 j = st j).
  { intros j A B C. unfold st2, st1. rewrite supd_other, set_child_other, set_red_other; auto. }
  assert (Nm : forall j, j <> HEAD -> d_name (st2 j) = d_name (st j) /\ d_kind (st2 j) = d_kind (st j)).
  { intros j A. unfold st2. rewrite supd_other by auto. unfold set_child, supd. destruct (j =? self) eqn:F; cbn.
    - assert (j = self) by lia. subst j. unfold st1. rewrite set_red_other; auto.
    - unfold st1, set_red, supd. destruct (j =? e) eqn:F2; auto. assert (j = e) by lia. subst; auto. }
  assert (Ne2 : st2 e = st1 e) by (unfold st2; rewrite supd_other, set_child_other; auto).
  assert (Rt : rep st2 t).
  { eapply rep_ext; [exact Hr|]. intros j Hj. apply S2; intros ->; tauto. }
  set (L0 := HEAD :: ids t).
  set (v0 := mkiv None (Some HEAD) None None (Some x) false false) in *.
  assert (G : gen upper st2 e L0 st2 [Hf] t L0).
  { constructor.
    - split.
      + change (plug [Hf] t) with (Nd true Lf HEAD t). cbn [rep]. unfold st2 at 1 2 3. rewrite supd_same. cbn. rewrite <- Et1. auto.
      + change (plug [Hf] t) with (Nd true Lf HEAD t). cbn. constructor; auto.
    - constructor.
    - constructor; [|constructor]. cbn. split; auto. intros X. destruct (X eq_refl).
    - auto.
    - apply keeps_refl.
    - auto.
    - auto.
    - left. split; auto. cbn. intros [X|X]; auto. }
  destruct (ins_loop upper (Z.to_nat maxn) st2 e v0) as [st3|] eqn:F; [|discriminate]. cbn [bind] in I.
  destruct (loop_any upper st2 e L0) with (n := Z.to_nat maxn) (st := st2) (v := v0) (k := [Hf]) (t := t) (st' := st3) as (t' & A3 & K3 & Fr3 & A & B & EA & EB & LA & LB); auto.
  { cbn. intros [X|X]; auto. }
  { apply sorted_head; auto. eapply sorted_names; [|exact So]. intros j Hj. apply Nm. intros ->. tauto. }
  { intros j [<-|Hj]; [left; auto|]. right. unfold ent_lt. destruct (Nm e He) as [-> _]. assert (j <> HEAD) by (intros ->; tauto). destruct (Nm j H) as [-> _].
    destruct (name_lt upper (d_name (st e)) (d_name (st j))) eqn:Q; auto. right. apply name_total; auto. }
  { cbn. rewrite Ne2. unfold st1, set_red. rewrite supd_same. cbn. auto. }
  { cbn. auto. }
  assert (A3' := A3). destruct A3' as [R3 D3]. change (plug [Hf] t') with (Nd true Lf HEAD t') in R3, D3. cbn [rep ids] in R3, D3. destruct R3 as (_ & _ & R3 & _ & R3').
  cbn in D3. inversion D3 as [|? ? D4 D5]; subst x0 l.
  assert (SS : StronglySorted (lo upper st2) (HEAD :: ids t')).
  { rewrite EB. assert (S0 : StronglySorted (lo upper st2) (A ++ B)).
    { rewrite <- EA. apply sorted_head; auto. eapply sorted_names; [|exact So]. intros j Hj. apply Nm. intros ->. tauto. }
    apply sorted_app in S0 as (S1 & S3 & S4). rewrite Forall_forall in LA, LB. apply sorted_app. split; auto. split.
    - constructor; auto. apply Forall_forall. auto.
    - intros a b Ha' [<-|Hb']; auto. }
  assert (Pm : Permutation (ids t') (e :: ids t)).
  { apply Permutation_cons_inv with (a := HEAD). rewrite EB. rewrite <- Permutation_middle. rewrite <- EA. apply perm_swap. }
  rewrite R3 in I. set (st4 := set_child st3 self (rid t')) in *.
  assert (Ne : exists y, rid t' = Some y) by (destruct t'; [cbn in Pm; apply Permutation_nil in Pm; discriminate|cbn; eauto]). destruct Ne as (y & Ey).
  assert (Y : In y (ids t')) by (apply rid_In; auto).
  assert (Sf : ~ In self (ids t')) by (intros X; apply (Permutation_in _ Pm) in X; destruct X as [X|X]; auto).
  assert (C4 : d_child (st4 self) = Some y) by (unfold st4, set_child; rewrite supd_same; auto). rewrite C4 in I. cbn [deref bind] in I. injection I as <-.
  exists (recolor y false t').
  assert (R4 : rep st4 t') by (eapply rep_ext; [exact R3'|]; intros j Hj; unfold st4; rewrite set_child_other; auto; intros ->; tauto).
  assert (St5 : forall j, j <> HEAD -> d_name (set_red st4 y false j) = d_name (st j) /\ d_kind (set_red st4 y false j) = d_kind (st j)).
  { intros j Hj. destruct (keeps_set_red st4 y false j) as (-> & -> & _). unfold st4, set_child, supd. destruct (j =? self) eqn:Q; cbn.
    - assert (j = self) by lia. subst j. destruct (K3 self) as (-> & -> & _). apply Nm. auto.
    - destruct (K3 j) as (-> & -> & _). apply Nm. auto. }
  assert (Ysf : y <> self) by (intros ->; tauto).
  constructor.
  - constructor; rewrite ?ids_recolor, ?rid_recolor; auto.
    + rewrite set_red_other, C4; auto.
    + apply rep_recolor. auto.
  - rewrite ids_recolor. auto.
  - rewrite ids_recolor. inversion SS as [|? ? SS1 SS2]; subst. eapply sorted_ext; [|exact SS1].
    intros a b Ha' Hb' [X1 [X2|X2]]; [subst; tauto|]. unfold ent_lt in *. assert (a <> HEAD) by (intros ->; tauto).
    destruct (St5 a H) as [-> _], (St5 b X1) as [-> _]. destruct (Nm a H) as [<- _], (Nm b X1) as [<- _]. auto.
  - destruct t' as [|c' l' y' r']; [discriminate|]. injection Ey as ->. cbn. rewrite Z.eqb_refl. auto.
  - exact St5.
  - intros j J1 J2. destruct (keeps_set_red st4 y false j) as (_ & _ & ->). unfold st4. rewrite set_child_other by auto. destruct (K3 j) as (_ & _ & ->).
    unfold st2. rewrite supd_other, set_child_other by auto. unfold st1. destruct (keeps_set_red st e true j) as (_ & _ & ->). auto.
  - intros j J1 J2 J3 J4. assert (j <> y) by (intros ->; apply (Permutation_in _ Pm) in Y; destruct Y as [X|X]; auto).
    rewrite set_red_other by auto. unfold st4. rewrite set_child_other by auto. rewrite Fr3; auto. intros [X|X]; auto.
  - rewrite set_red_other by auto. unfold st4, set_child. rewrite !supd_same. rewrite rid_recolor.
    assert (X : ~ In self L0) by (cbn; intros [X|X]; auto). rewrite (Fr3 self); auto. unfold st2. rewrite supd_other by auto. unfold set_child. rewrite supd_same. unfold st1. rewrite set_red_other by auto. cbn. auto.
Qed.

Lemma add_child_any : forall upper st self e maxn t st', holds st self t -> sorted upper st (ids t) ->
  e <> HEAD -> e <> self -> ~ In e (ids t) -> d_left (st e) = None -> d_right (st e) = None ->
  (forall j, In j (ids t) -> name_eq upper (d_name (st e)) (d_name (st j)) = false) ->
  add_child upper st self e maxn = Ok st' -> exists t', put_in upper st self e t st' t'.
Proof.
  intros upper st self e maxn t st' H So He Hes Het El Er Ha I.
  destruct t as [|c l x r].
  - destruct (add_child_ok upper st self e (zlen (ids Lf) + 1) Lf) as (st2 & t2 & I2 & A2); auto; [cbn; auto|unfold zlen; cbn; lia|].
    exists t2. apply added_put_in. replace st' with st2; auto. unfold add_child in *.
    assert (Ch : d_child (set_red st e false self) = None) by (rewrite set_red_other by auto; rewrite (h_child _ _ _ H); auto). rewrite Ch in *. congruence.
  - unfold add_child in I.
    assert (Ot : forall j, j <> e -> set_red st e false j = st j) by (intros; apply set_red_other; auto).
    assert (Ch : d_child (set_red st e false self) = Some x) by (rewrite Ot; [apply (h_child _ _ _ H)|auto]). rewrite Ch in I.
    set (t := Nd c l x r) in *.
    destruct (insert_any upper (set_red st e false) self e maxn t st') as (t' & [B1 B2 B3 B4 B5 B6 B7 B8]); auto.
    + destruct H. constructor; auto. eapply rep_ext; eauto. intros j Hj. apply Ot. intros ->. tauto.
    + eapply sorted_names; [|exact So]. intros j Hj. destruct (keeps_set_red st e false j) as (-> & _). auto.
    + change (kid (set_red st e false) e false = None). rewrite kid_set_red. auto.
    + change (kid (set_red st e false) e true = None). rewrite kid_set_red. auto.
    + intros j Hj. destruct (keeps_set_red st e false e) as (-> & _), (keeps_set_red st e false j) as (-> & _). auto.
    + exists t'. constructor; auto.
      * intros j Hj. destruct (B5 j Hj) as [-> ->]. destruct (keeps_set_red st e false j) as (-> & -> & _). auto.
      * intros j J1 J2. rewrite (B6 j J1 J2). destruct (keeps_set_red st e false j) as (_ & _ & ->). auto.
      * intros j J1 J2 J3 J4. rewrite B7, Ot; auto.
      * rewrite B8. unfold set_child. rewrite !supd_same, Ot; auto.
Qed.
