(** Removal takes exactly the entry out of the search tree: the loop invariant of [pop] *)
From Verif Require Import Base BaseFacts RBModel RBTree RBOrder RBInsert.
From Coq Require Import ZArith List Bool Lia Permutation Sorted.
Import ListNotations.
Open Scope Z_scope.
Notation length := List.length.

(** contexts whose last frame is the false root, of any colour *)
Inductive hdp : list frame -> Prop :=
| hdp_1 : forall c, hdp [mkf true c HEAD Lf]
| hdp_c : forall f k, f_i f <> HEAD -> hdp k -> hdp (f :: k).
Lemma hdp_one : forall f, hdp [f] -> exists c, f = mkf true c HEAD Lf.
Proof. intros f H. inversion H as [|? ? ? H2]; subst; eauto. inversion H2. Qed.
Lemma hdp_two : forall f g k, hdp (f :: g :: k) -> f_i f <> HEAD /\ hdp (g :: k).
Proof. intros f g k H. inversion H; subst; auto. Qed.
Lemma hdp_HEAD : forall k, hdp k -> In HEAD (cids k).
Proof. intros k H. induction H; cbn; auto. right. apply in_or_app. auto. Qed.
Lemma at_HEADp : forall st k t, at_ st k t -> hdp k -> ~ In HEAD (ids t).
Proof. intros st k t [_ A] H X. apply NoDup_plug in A as (_ & _ & A). apply (A _ X). apply hdp_HEAD. auto. Qed.

(** recolouring anywhere *)
Definition frecolor (i : Z) (b : bool) (f : frame) : frame := mkf (f_d f) (if f_i f =? i then b else f_c f) (f_i f) (recolor i b (f_s f)).
Lemma plug_recolor : forall i b k t, recolor i b (plug k t) = plug (map (frecolor i b) k) (recolor i b t).
Proof.
  intros i b k. induction k as [|f k IH]; intros t; cbn; auto. rewrite IH. f_equal. unfold fill. rewrite recolor_nd. auto.
Qed.
Lemma at_recolor : forall st k t i b, at_ st k t -> at_ (set_red st i b) (map (frecolor i b) k) (recolor i b t).
Proof.
  intros st k t i b [A B]. unfold at_. rewrite <- plug_recolor. split; [apply rep_recolor; auto|]. rewrite ids_recolor. auto.
Qed.
Lemma frecolor_out : forall i b k, ~ In i (cids k) -> map (frecolor i b) k = k.
Proof.
  intros i b k. induction k as [|f k IH]; cbn; auto. rewrite in_app_iff. intros H. rewrite IH by tauto. f_equal. unfold frecolor.
  rewrite recolor_out by tauto. replace (f_i f =? i) with false by (assert (f_i f <> i) by tauto; lia). destruct f; auto.
Qed.
Lemma hdp_recolor : forall i b k, hdp k -> hdp (map (frecolor i b) k).
Proof. intros i b k H. induction H; cbn; constructor; auto. Qed.

Lemma at_rec1 : forall st f k t i b, at_ st (f :: k) t -> ~ In i (cids k) -> at_ (set_red st i b) (frecolor i b f :: k) (recolor i b t).
Proof. intros st f k t i b A N. apply (at_recolor _ _ _ i b) in A. cbn [map] in A. rewrite (frecolor_out i b k) in A; auto. Qed.

Lemma ids_nd : forall d c c' x x' i y y', ids x = ids x' -> ids y = ids y' -> ids (nd d c x i y) = ids (nd d c' x' i y').
Proof. intros. destruct d; cbn; congruence. Qed.

Section Push.
Variable upper : list Z -> list Z.

(** what one push does to the context above [x]: [k] became [k'] *)
Inductive pushed (d : bool) (zs : list Z) : list frame -> list frame -> Prop :=
| pu_0 : forall f f' k, f_d f' = f_d f -> f_i f' = f_i f -> ids (f_s f') = ids (f_s f) -> (f_d f <> d -> f_s f' = f_s f) -> pushed d zs (f :: k) (f' :: k)
| pu_1 : forall f k c s C, In s zs -> s <> HEAD -> pushed d zs (f :: k) (mkf d c s C :: f :: k)
| pu_2 : forall f k p B c c' n S, f_d f = d -> p = f_i f -> In n (ids (f_s f)) -> n <> HEAD -> p <> HEAD -> k <> [] ->
    pushed d zs (f :: k) (mkf d c p B :: mkf d c' n S :: k).

Definition top (k : list frame) : option Z := match k with [] => None | f :: _ => Some (f_i f) end.

Lemma is_parent_at : forall st f k t x, at_ st (f :: k) t -> rid t = Some x -> is_parent_of st (f_i f) (Some x) = true.
Proof. intros st f k t x A E. destruct (at_kid _ _ _ _ A) as (K & _). rewrite <- E, <- K. apply parent_kid. Qed.

Lemma push_ok : forall st f0 k1 d c y x z, let t := nd d c y x z in at_ st (f0 :: k1) t -> hdp (f0 :: k1) ->
  (forall i j, In i (ids (plug (f0 :: k1) t)) -> In j (ids (plug (f0 :: k1) t)) -> i <> HEAD -> j <> HEAD -> name_eq upper (d_name (st i)) (d_name (st j)) = true -> i = j) ->
  exists st' kn c' z', pop_push upper st x (f_i f0) (top k1) d (f_d f0) = Ok (st', match kn with g :: _ => f_i g | [] => HEAD end) /\
    kn <> [] /\ at_ st' (mkf d c' x z' :: kn) y /\ hdp (mkf d c' x z' :: kn) /\ ids (plug (mkf d c' x z' :: kn) y) = ids (plug (f0 :: k1) t) /\
    keeps st st' /\ (forall j, ~ In j (ids (plug (f0 :: k1) t)) -> st' j = st j) /\ pushed d (ids z) (f0 :: k1) kn.
Proof.
  intros st f0 k1 d c y x z t A Hh Hd. pose proof (at_HEADp _ _ _ A Hh) as NH. destruct (at_sub _ _ _ A) as [R ND].
  assert (NHx : x <> HEAD) by (intros ->; apply NH; unfold t; rewrite In_nd; auto).
  pose proof (proj1 (rep_nd _ _ _ _ _ _) R) as (R1 & R2 & R3 & R4 & R5).
  assert (Same : forall c1, c1 = c -> exists st' kn c' z', Ok (st, f_i f0) = Ok (st', match kn with g :: _ => f_i g | [] => HEAD end) /\
    kn <> [] /\ at_ st' (mkf d c' x z' :: kn) y /\ hdp (mkf d c' x z' :: kn) /\ ids (plug (mkf d c' x z' :: kn) y) = ids (plug (f0 :: k1) t) /\
    keeps st st' /\ (forall j, ~ In j (ids (plug (f0 :: k1) t)) -> st' j = st j) /\ pushed d (ids z) (f0 :: k1) kn).
  { intros c1 _. exists st, (f0 :: k1), c, z. split; auto. split; [discriminate|]. split; [exact A|]. split; [constructor; auto|]. split; [auto|]. split; [apply keeps_refl|]. split; auto.
    constructor; auto. }
  unfold pop_push. rewrite (is_red_rep _ _ _ R (rid_nd _ _ _ _ _)). unfold t at 1. rewrite tred_nd. rewrite R2, (rep_rid _ _ R4).
  destruct (negb c && negb (tred y)) eqn:Push; [|apply (Same c); auto].
  apply andb_prop in Push as [Pc Py]. assert (c = false) by (destruct c; auto; discriminate). clear R1 Pc. subst c.
  rewrite R3, (rep_rid _ _ R5). destruct (tred z) eqn:Tz.
  - (* single rotation at x *)
    assert (Ez : exists cz B s C, z = nd d cz B s C).
    { destruct z as [|cz zl s zr]; [discriminate|]. exists cz, (if d then zr else zl), s, (if d then zl else zr). apply Nd_nd. }
    destruct Ez as (cz & B & s & C & ->).
    destruct (single_ok st d false y x cz B s C R ND NH) as (st1 & J & Q1 & Q2 & Q3). rewrite J. cbn [bind].
    set (t' := nd d false (nd d true y x B) s C) in *.
    assert (I : ids t' = ids t) by (apply ids_single).
    assert (A2 : at_ (set_kid st1 (f_i f0) (f_d f0) (Some s)) (f0 :: k1) t').
    { replace (Some s) with (rid t') by apply rid_nd. eapply at_replace; eauto; [rewrite I; auto|]. intros j Hj. apply Q3; intros ->; apply Hj; unfold t; rewrite !In_nd; auto. }
    destruct (at_kid _ _ _ _ A2) as (K & _). rewrite K. unfold t' at 1. rewrite rid_nd. cbn [deref bind].
    assert (NHs : s <> HEAD) by (intros ->; apply NH; unfold t; rewrite !In_nd; auto).
    assert (A3 : at_ (set_kid st1 (f_i f0) (f_d f0) (Some s)) (mkf d false s C :: f0 :: k1) (nd d true y x B)) by exact A2.
    pose proof (is_parent_at _ _ _ _ x A3 (rid_nd _ _ _ _ _)) as W. cbn [f_i] in W. rewrite W. cbv iota.
    exists (set_kid st1 (f_i f0) (f_d f0) (Some s)), (mkf d false s C :: f0 :: k1), true, B. split; auto. split; [discriminate|]. split; [exact A3|].
    split; [constructor; auto; constructor; auto|]. split; [change (ids (plug (f0 :: k1) t') = ids (plug (f0 :: k1) t)); apply plug_ids; auto|].
    split; [eapply keeps_trans; [exact Q2|apply keeps_set_kid]|]. split.
    + intros j Hj. rewrite In_plug in Hj. rewrite set_kid_other; [apply Q3|]; intros ->; apply Hj; [left; unfold t; rewrite !In_nd; auto|left; unfold t; rewrite !In_nd; auto|right; left; auto].
    + constructor; auto. rewrite In_nd. auto.
  - destruct (at_kid _ _ _ _ A) as (K1 & K2 & K3).
    assert (Nn := proj2 A). apply NoDup_plug in Nn as (_ & N2 & N3). cbn [cids] in N2, N3. inversion N2 as [|? ? N4 N5]; subst. rewrite in_app_iff in N4.
    assert (Inx : In x (ids t)) by (unfold t; rewrite In_nd; auto).
    assert (Nx : x <> f_i f0) by (intros E; apply (N3 x Inx); left; auto).
    pose proof (proj1 (NoDup_nd _ _ _ _ _) ND) as (m1 & m2 & _).
    assert (Nxs : ~ In x (ids (f_s f0)) /\ ~ In x (cids k1)) by (split; intros E; apply (N3 x Inx); right; rewrite in_app_iff; auto). destruct Nxs as [Nxs Nxk].
    assert (Nf : ~ In (f_i f0) (ids y) /\ ~ In (f_i f0) (ids z)).
    { split; intros E; apply (N3 (f_i f0)); auto; try (left; auto); unfold t; rewrite In_nd; auto. } destruct Nf as [Nf1 Nf2].
    (* a colour flip *)
    assert (Flip : forall s, s = x \/ (In s (ids (f_s f0)) /\ f_d f0 = d) -> exists st' kn c' z', Ok (set_red (set_red (set_red st (f_i f0) false) s true) x true, f_i f0) = Ok (st', match kn with g :: _ => f_i g | [] => HEAD end) /\
      kn <> [] /\ at_ st' (mkf d c' x z' :: kn) y /\ hdp (mkf d c' x z' :: kn) /\ ids (plug (mkf d c' x z' :: kn) y) = ids (plug (f0 :: k1) t) /\
      keeps st st' /\ (forall j, ~ In j (ids (plug (f0 :: k1) t)) -> st' j = st j) /\ pushed d (ids z) (f0 :: k1) kn).
    { intros s Hs. assert (Nsk : ~ In s (cids k1)).
      { destruct Hs as [-> |[Hs _]]; auto. apply NoDup_app_iff in N5 as (_ & _ & N5). auto. }
      pose proof (at_rec1 _ _ _ _ (f_i f0) false A) as A1. specialize (A1 ltac:(tauto)).
      apply (at_rec1 _ _ _ _ s true) in A1; auto. apply (at_rec1 _ _ _ _ x true) in A1; auto.
      assert (Et : recolor x true (recolor s true (recolor (f_i f0) false t)) = nd d true y x z).
      { unfold t. rewrite !recolor_nd. rewrite Z.eqb_refl. rewrite (recolor_out (f_i f0) false y), (recolor_out (f_i f0) false z) by auto.
        destruct Hs as [-> |[Hs _]]; [rewrite !(recolor_out x true y), !(recolor_out x true z) by auto; auto|].
        assert (~ In s (ids y) /\ ~ In s (ids z)) as [q1 q2].
        { split; intros E; apply (N3 s); [|right; rewrite in_app_iff; auto| |right; rewrite in_app_iff; auto]; unfold t; rewrite In_nd; auto. }
        rewrite (recolor_out s true y), (recolor_out s true z), (recolor_out x true y), (recolor_out x true z) by auto. auto. }
      rewrite Et in A1. set (f' := frecolor x true (frecolor s true (frecolor (f_i f0) false f0))) in *.
      exists (set_red (set_red (set_red st (f_i f0) false) s true) x true), (f' :: k1), true, z. split; [auto|]. split; [discriminate|]. split; [exact A1|].
      assert (If : f_i f' = f_i f0 /\ f_d f' = f_d f0 /\ ids (f_s f') = ids (f_s f0) /\ (f_d f0 <> d -> f_s f' = f_s f0) /\ (f_s f0 = Lf -> f_s f' = Lf)).
      { unfold f', frecolor. cbn. rewrite !ids_recolor. repeat split; auto; [|intros ->; auto]. intros Hdd.
        destruct Hs as [-> |[_ Hs]]; [|congruence]. rewrite !recolor_out; rewrite ?ids_recolor; auto; tauto. }
      clearbody f'. destruct If as (If & Idd & Is & Is2 & Is3).
      split.
      { constructor; auto. inversion Hh as [ch Hc|? ? H1 H2]; subst; [|constructor; auto; congruence].
        destruct f' as [fd fc fi fs]. cbn in *. rewrite Is3, If, Idd by auto. constructor. }
      split.
      { change (ids (plug k1 (nd (f_d f') (f_c f') (nd d true y x z) (f_i f') (f_s f'))) = ids (plug k1 (nd (f_d f0) (f_c f0) t (f_i f0) (f_s f0)))). apply plug_ids.
        rewrite If, Idd. unfold t, nd. destruct (f_d f0), d; cbn; rewrite Is; auto. }
      split; [repeat (eapply keeps_trans; [|apply keeps_set_red]); apply keeps_refl|]. split.
      { intros j Hj. rewrite In_plug in Hj. cbn [cids] in Hj. cbn [In] in Hj. rewrite in_app_iff in Hj. 
        assert (j <> x) by (intros Ej; apply Hj; left; rewrite Ej; auto). assert (j <> f_i f0) by (intros Ej; apply Hj; right; left; auto).
        assert (j <> s) by (intros Ej; destruct Hs as [Hs|[Hs _]]; [congruence|apply Hj; right; right; left; rewrite Ej; auto]). rewrite !set_red_other; auto. }
      constructor; auto. }
    destruct (bool_dec d (f_d f0)) as [Ed|Ed].
    + (* the true sibling *)
      replace (kid st (f_i f0) (negb d)) with (rid (f_s f0)) by (rewrite Ed; symmetry; exact K2).
      destruct f0 as [d0 c0 p sib]. cbn [f_d f_c f_i f_s] in *. subst d0.
      assert (Esib : sib = Lf \/ exists cs S1 s S2, sib = nd d cs S1 s S2).
      { destruct sib as [|cs sl s sr]; auto. right. exists cs, (if d then sr else sl), s, (if d then sl else sr). apply Nd_nd. }
      destruct Esib as [-> |(cs & S1 & s & S2 & ->)]; [cbn; apply (Same false); auto|]. rewrite rid_nd.
      set (sib := nd d cs S1 s S2) in *. set (T := nd d c0 t p sib).
      destruct k1 as [|f1 k2].
      { destruct (hdp_one _ Hh) as (ch & X). exfalso. unfold sib, nd in X. destruct d; discriminate. }
      destruct (hdp_two _ _ _ Hh) as [NHp Hh1]. cbn [f_i] in NHp.
      assert (AT : at_ st (f1 :: k2) T) by exact A. destruct (at_sub _ _ _ AT) as [RT NDT]. pose proof (at_HEADp _ _ _ AT Hh1) as NHT.
      assert (Rs : rep st sib) by (apply (proj1 (rep_nd _ _ _ _ _ _) RT)).
      pose proof (proj1 (rep_nd _ _ _ _ _ _) Rs) as (_ & r2 & r3 & r4 & r5).
      rewrite r2, r3, (rep_rid _ _ r4), (rep_rid _ _ r5).
      assert (Ins : In s (ids sib)) by (unfold sib; rewrite In_nd; auto).
      destruct (negb (tred S2) && negb (tred S1)) eqn:Fl; [apply Flip; auto|].
      cbn [top deref bind]. set (g := f_i f1) in *.
      destruct (at_kid _ _ _ _ AT) as (kg1 & kg2 & _). unfold T in kg1. rewrite rid_nd in kg1. fold g in kg1, kg2.
      match goal with |- context [bind (if ?a then Ok false else if ?b then Ok true else Err CompoundError)] =>
        assert (D2 : (if a then Ok false else if b then Ok true else Err CompoundError) = Ok (f_d f1)) end.
      { assert (Er : forall a, name_eq upper a a = true) by (intros a; unfold name_eq; rewrite Z.eqb_refl; apply zlist_eqb_refl).
        destruct (f_d f1) eqn:Df; cbn [negb] in kg2; rewrite kg1, ?kg2; [|rewrite Er; auto].
        rewrite Er. destruct (rid (f_s f1)) as [w|] eqn:Ew; auto. destruct (name_eq upper (d_name (st w)) (d_name (st p))) eqn:Ne; auto. exfalso.
        assert (Iw : In w (cids (f1 :: k2))) by (cbn; right; apply in_or_app; left; apply rid_In; auto).
        assert (Ip : In p (ids T)) by (unfold T; rewrite In_nd; auto).
        assert (w = p).
        { apply Hd; auto; [change (In w (ids (plug (f1 :: k2) T)))|change (In p (ids (plug (f1 :: k2) T)))|]; rewrite ?In_plug; auto.
          intros ->. pose proof (proj2 AT) as X. cbn [plug] in X. apply NoDup_plug in X as (X & _). unfold fill in X.
          inversion Hh1; subst; [cbn in Ew; discriminate|]. apply (at_HEADp st k2 (fill f1 T) AT); auto. unfold fill. rewrite In_nd. right. right. apply rid_In. auto. }
        subst w. pose proof (proj2 AT) as X. apply NoDup_plug in X as (_ & _ & X). apply (X p Ip Iw). }
      rewrite D2. cbn [bind].
      (* after the rotation: colours *)
      assert (Fin : forall st1 n W B w, let T1 := nd d false (nd d true t p B) n W in
        rep st1 T1 -> ids T1 = ids T -> keeps st st1 -> (forall j, ~ In j (ids T) -> st1 j = st j) -> rid W = Some w -> In n (ids sib) ->
        exists st' kn c' z', (do (st1', n') <- Ok (st1, n) ;;
          let st2 := set_red (set_kid st1' g (f_d f1) (Some n')) x true in
          do n2 <- deref (kid st2 g (f_d f1)) ;;
          let st3 := set_red st2 n2 true in
          do a <- deref (kid st3 n2 false) ;;
          let st4 := set_red st3 a false in
          do b <- deref (kid st4 n2 true) ;;
          let st5 := set_red st4 b false in
          guard (is_parent_of st5 p (Some x)) else AssertionError ;;
          Ok (st5, p)) = Ok (st', match kn with g :: _ => f_i g | [] => HEAD end) /\
        kn <> [] /\ at_ st' (mkf d c' x z' :: kn) y /\ hdp (mkf d c' x z' :: kn) /\ ids (plug (mkf d c' x z' :: kn) y) = ids (plug (mkf d c0 p sib :: f1 :: k2) t) /\
        keeps st st' /\ (forall j, ~ In j (ids (plug (mkf d c0 p sib :: f1 :: k2) t)) -> st' j = st j) /\ pushed d (ids z) (mkf d c0 p sib :: f1 :: k2) kn).
      { intros st1 n W B w T1 Q1 Q2 Q3 Q4 Ew Inn.
        assert (A2 : at_ (set_kid st1 g (f_d f1) (Some n)) (f1 :: k2) T1).
        { replace (Some n) with (rid T1) by apply rid_nd. eapply at_replace; [exact AT|exact Q1|rewrite Q2; auto|exact Q4|exact NHT]. }
        cbn [bind]. cbv zeta. set (s2 := set_kid st1 g (f_d f1) (Some n)) in *.
        destruct (at_kid _ _ _ _ A2) as (kk1 & _). unfold T1 in kk1. rewrite rid_nd in kk1. fold g in kk1.
        rewrite (kid_set_red s2 x true), kk1. cbn [deref bind].
        destruct (at_sub _ _ _ A2) as [R2' ND2]. pose proof (proj1 (rep_nd _ _ _ _ _ _) R2') as (_ & e2 & e3 & _). rewrite rid_nd in e2. rewrite Ew in e3.
        pose proof (proj1 (NoDup_nd _ _ _ _ _) ND2) as (v1 & v2 & v3 & v4 & v5). pose proof (proj1 (NoDup_nd _ _ _ _ _) v3) as (v6 & v7 & v8 & v9 & v10).
        rewrite In_nd in v1. assert (v5' : forall j, j = p \/ In j (ids t) \/ In j (ids B) -> ~ In j (ids W)) by (intros j Hj; apply v5; rewrite In_nd; auto). clear v5.
        pose proof (rid_In _ _ Ew) as Iw.
        assert (Np : p <> n) by (intros E; apply v1; auto). assert (Nt : ~ In n (ids t)) by tauto. assert (NB : ~ In n (ids B)) by tauto.
        assert (Nxn : x <> n) by (intros E; apply Nt; rewrite <- E; auto).
        assert (Nxp : x <> p) by auto.
        assert (NxB : ~ In x (ids B)) by (apply v10; auto). assert (NxW : ~ In x (ids W)) by auto. assert (NpW : ~ In p (ids W)) by auto.
        assert (Nwp : w <> p) by (intros E; subst w; auto). assert (Nwn : w <> n) by (intros E; subst w; auto). assert (Nwx : w <> x) by (intros E; subst w; auto).
        assert (Nwt : ~ In w (ids t)) by (intros E; apply (v5' w); auto). assert (NwB : ~ In w (ids B)) by (intros E; apply (v5' w); auto).
        set (t2 := nd d true y x z). set (T2 := nd d true (nd d false t2 p B) n (recolor w false W)).
        assert (It2 : ids t2 = ids t) by (unfold t2, t, nd; destruct d; auto).
        assert (X1 : recolor x true T1 = nd d false (nd d true t2 p B) n W).
        { unfold T1, t. rewrite !recolor_nd, Z.eqb_refl. replace (n =? x) with false by lia. replace (p =? x) with false by lia.
          rewrite (recolor_out x true y), (recolor_out x true z), (recolor_out x true B), (recolor_out x true W); auto. }
        assert (X2 : recolor n true (recolor x true T1) = nd d true (nd d true t2 p B) n W).
        { rewrite X1. rewrite !recolor_nd, Z.eqb_refl. replace (p =? n) with false by lia.
          rewrite (recolor_out n true t2), (recolor_out n true B), (recolor_out n true W); auto. rewrite It2. auto. }
        assert (Rp : forall c5 c6 W', ids W' = ids W -> recolor p false (nd d c5 (nd d c6 t2 p B) n W') = nd d c5 (nd d false t2 p B) n W').
        { intros c5 c6 W' E. rewrite !recolor_nd, Z.eqb_refl. replace (n =? p) with false by lia. rewrite (recolor_out p false t2), (recolor_out p false B), (recolor_out p false W'); rewrite ?E, ?It2; auto. }
        assert (Rw : forall c5 c6 W', ids W' = ids W -> recolor w false (nd d c5 (nd d c6 t2 p B) n W') = nd d c5 (nd d c6 t2 p B) n (recolor w false W')).
        { intros c5 c6 W' E. rewrite !recolor_nd. replace (n =? w) with false by lia. replace (p =? w) with false by lia. rewrite (recolor_out w false t2), (recolor_out w false B); rewrite ?It2; auto. }
        assert (Nk : forall j, In j (ids T1) -> ~ In j (cids (f1 :: k2))).
        { intros j Hj. pose proof (proj2 A2) as X. apply NoDup_plug in X as (_ & _ & X). auto. }
        assert (AtT : forall s0 k0 t0 i b, at_ s0 k0 t0 -> ~ In i (cids k0) -> at_ (set_red s0 i b) k0 (recolor i b t0)).
        { intros s0 k0 t0 i b X Y. apply (at_recolor _ _ _ i b) in X. rewrite (frecolor_out i b k0) in X; auto. }
        assert (I1 : In x (ids T1) /\ In n (ids T1) /\ In p (ids T1) /\ In w (ids T1)) by (unfold T1; rewrite !In_nd; auto 10). destruct I1 as (i1 & i2 & i3 & i4).
        assert (A5 : exists a b, kid s2 n false = Some a /\ kid s2 n true = Some b /\
          at_ (set_red (set_red (set_red (set_red s2 x true) n true) a false) b false) (f1 :: k2) T2 /\ In a (ids T) /\ In b (ids T)).
        { rewrite <- Q2. pose proof (AtT _ _ _ x true A2 (Nk x i1)) as Y1. pose proof (AtT _ _ _ n true Y1 (Nk n i2)) as Y2. rewrite X2 in Y2.
          destruct d eqn:Dd; cbn [negb] in e3.
          - exists w, p. split; auto. split; auto. split; auto.
            pose proof (AtT _ _ _ w false Y2 (Nk w i4)) as Y3. rewrite Rw in Y3 by auto. pose proof (AtT _ _ _ p false Y3 (Nk p i3)) as Y4. rewrite Rp in Y4 by apply ids_recolor. exact Y4.
          - exists p, w. split; auto. split; auto. split; auto.
            pose proof (AtT _ _ _ p false Y2 (Nk p i3)) as Y3. rewrite Rp in Y3 by auto. pose proof (AtT _ _ _ w false Y3 (Nk w i4)) as Y4. rewrite Rw in Y4 by auto. exact Y4. }
        destruct A5 as (a & b & Ka & Kb & A5 & Ia & Ib). rewrite (kid_set_red _ n true n false), (kid_set_red s2 x true), Ka. cbn [deref bind].
        rewrite (kid_set_red _ a false n true), (kid_set_red _ n true n true), (kid_set_red s2 x true), Kb. cbn [deref bind].
        set (s5 := set_red (set_red (set_red (set_red s2 x true) n true) a false) b false) in *.
        assert (A6 : at_ s5 (mkf d false p B :: mkf d true n (recolor w false W) :: f1 :: k2) t2) by exact A5.
        pose proof (is_parent_at _ _ _ _ x A6 (rid_nd _ _ _ _ _)) as Ip. cbn [f_i] in Ip. rewrite Ip. cbv iota.
        exists s5, (mkf d false p B :: mkf d true n (recolor w false W) :: f1 :: k2), true, z. split; auto. split; [discriminate|]. split; [exact A6|].
        assert (NHn : n <> HEAD) by (intros E; apply NHT; rewrite <- Q2, <- E; auto).
        split; [repeat (constructor; auto)|]. split.
        { change (ids (plug (f1 :: k2) T2) = ids (plug (f1 :: k2) T)). apply plug_ids. rewrite <- Q2. unfold T2, T1. apply ids_nd; [apply ids_nd; auto|apply ids_recolor]. }
        split.
        { unfold s5, s2. eapply keeps_trans; [exact Q3|]. eapply keeps_trans; [apply keeps_set_kid|]. repeat (eapply keeps_trans; [|apply keeps_set_red]). apply keeps_refl. }
        split.
        { intros j Hj. change (~ In j (ids (plug (f1 :: k2) T))) in Hj. rewrite In_plug in Hj. unfold s5, s2. rewrite Q2 in i1, i2.
          rewrite !set_red_other by (intros E; apply Hj; left; rewrite E; auto). rewrite set_kid_other by (intros E; apply Hj; right; left; auto). apply Q4. tauto. }
        apply pu_2; auto. discriminate. }
      destruct (tred S1) eqn:T1.
      * assert (E1 : exists c3 B n C, S1 = nd d c3 B n C).
        { destruct S1 as [|c3 l3 n rr3]; [discriminate|]. exists c3, (if d then rr3 else l3), n, (if d then l3 else rr3). apply Nd_nd. }
        destruct E1 as (c3 & B & n & C & ->).
        destruct (double_ok st d c0 t p cs c3 B n C s S2 RT NDT NHT) as (st1 & J & j1 & j2 & j3). rewrite J.
        apply (Fin st1 n (nd d true C s S2) B s); auto.
        { apply ids_double. }
        { apply rid_nd. }
        { unfold sib. rewrite !In_nd. auto. }
      * assert (T2 : tred S2 = true) by (destruct (tred S2); auto). assert (Ew : exists w, rid S2 = Some w) by (destruct S2; [discriminate|cbn; eauto]). destruct Ew as (w & Ew).
        destruct (single_ok st d c0 t p cs S1 s S2 RT NDT NHT) as (st1 & J & j1 & j2 & j3). rewrite J.
        apply (Fin st1 s S2 S1 w); auto.
        { apply ids_single. }
        { intros j Hj. apply j3; intros ->; apply Hj; unfold T, sib; rewrite !In_nd; auto. }
    + (* the entry itself is taken for its sibling *)
      assert (Ed' : negb d = f_d f0) by (destruct d, (f_d f0); auto; tauto). rewrite Ed', K1. unfold t at 1. rewrite rid_nd.
      assert (Q1 : is_red st (kid st x (negb (f_d f0))) = false) by (rewrite <- Ed', negb_involutive, R2, (rep_rid _ _ R4); destruct (tred y); auto).
      assert (Q2 : is_red st (kid st x (f_d f0)) = false) by (rewrite <- Ed', R3, (rep_rid _ _ R5); auto).
      rewrite Q1, Q2. cbn [negb andb]. apply Flip. auto.
Qed.
End Push.

(** a subtree is replaced by one with fewer entries *)
Lemma at_shrink : forall st st' f k t t', at_ st (f :: k) t -> rep st' t' -> NoDup (ids t') -> (forall j, In j (ids t') -> In j (ids t)) ->
  (forall j, ~ In j (ids t) -> st' j = st j) -> ~ In HEAD (ids t) -> at_ (set_kid st' (f_i f) (f_d f) (rid t')) (f :: k) t'.
Proof.
  intros st st' f k t t' [A B] R N P E H. apply rep_plug in A as [A1 A2]. apply NoDup_plug in B as (B1 & B2 & B3).
  assert (Hf : ~ In (f_i f) (ids t)) by (intros X; apply (B3 _ X); cbn; auto).
  assert (O : forall j, In j (cids (f :: k)) -> j <> f_i f -> set_kid st' (f_i f) (f_d f) (rid t') j = st j).
  { intros j Hj Hn. rewrite set_kid_other by auto. apply E. intros X. apply (B3 _ X). auto. }
  split.
  - apply rep_plug. split.
    + cbn in A1. destruct A1 as (a1 & a2 & a3 & a4 & a5). cbn [cids] in B2. inversion B2 as [|? ? B4 B5]; subst. rewrite in_app_iff in B4.
      cbn [repc]. rewrite red_set_kid, kid_set_kid, kid_set_kid_neg. unfold kid in *. rewrite (E _ Hf). rewrite link_rid by (intros X; apply H; auto).
      repeat split; auto.
      * eapply rep_ext; eauto. intros j Hj. apply O; [cbn; right; apply in_or_app; auto|intros ->; tauto].
      * eapply repc_ext; eauto. intros j Hj. apply O; [cbn; right; apply in_or_app; auto|intros ->; tauto].
    + eapply rep_ext; eauto. intros j Hj. apply set_kid_other. intros ->. apply Hf. auto.
  - apply NoDup_plug. split; auto.
Qed.
Lemma plug_app : forall k k' t, plug (k ++ k') t = plug k' (plug k t).
Proof. induction k as [|f k IH]; intros k' t; cbn; auto. Qed.

Section Loop.
Variable upper : list Z -> list Z.
Notation ent_lt := (ent_lt upper). Notation lo := (lo upper).
Variables (st0 : store) (e : Z) (L0 : list Z).
Hypothesis HL : StronglySorted (lo st0) L0.
Hypothesis HND : NoDup L0.
Hypothesis He : e <> HEAD.
Hypothesis HeL : In e L0.

Lemma sorted_pair : forall l i j, StronglySorted (lo st0) l -> In i l -> In j l -> i <> j -> lo st0 i j \/ lo st0 j i.
Proof.
  induction l as [|a l IH]; intros i j S Hi Hj N; [destruct Hi|]. inversion S; subst. rewrite Forall_forall in *.
  destruct Hi as [<-|Hi], Hj as [<-|Hj]; auto; tauto.
Qed.
Lemma L0_total : forall i j, In i L0 -> In j L0 -> i <> j -> i <> HEAD -> j <> HEAD -> ent_lt st0 i j = false -> ent_lt st0 j i = true.
Proof.
  intros i j Hi Hj N Ni Nj E. destruct (sorted_pair _ _ _ HL Hi Hj N) as [[_ [X|X]]|[_ [X|X]]]; try tauto; congruence.
Qed.
Lemma L0_names : forall i j, In i L0 -> In j L0 -> i <> HEAD -> j <> HEAD -> name_eq upper (d_name (st0 i)) (d_name (st0 j)) = true -> i = j.
Proof.
  intros i j Hi Hj Ni Nj E. destruct (Z.eq_dec i j) as [|N]; auto. exfalso.
  assert (X : forall a b, name_lt upper a b = true -> name_eq upper a b = true -> False).
  { unfold name_lt, name_eq. intros a b. destruct (zlen a =? zlen b); [|discriminate]. intros A B. apply zlist_eqb_spec in B. rewrite B, lex_irrefl in A. discriminate. }
  assert (Sy : name_eq upper (d_name (st0 j)) (d_name (st0 i)) = true).
  { unfold name_eq in *. rewrite Z.eqb_sym. destruct (zlen (d_name (st0 i)) =? zlen (d_name (st0 j))); [|discriminate]. apply zlist_eqb_spec in E. rewrite E. apply zlist_eqb_refl. }
  destruct (sorted_pair _ _ _ HL Hi Hj N) as [[_ [Y|Y]]|[_ [Y|Y]]]; try tauto; eapply X; eauto.
Qed.
Lemma away_dir : forall k d c y x z j, ids (plug k (nd d c y x z)) = L0 -> x <> HEAD -> ~ In HEAD (ids z) -> ent_lt st0 x e = d -> In j (ids z) -> ent_lt st0 j e = d.
Proof.
  intros k d c y x z j EL Hx HH Hd Hj.
  assert (Ix : In x L0) by (rewrite <- EL, In_plug, In_nd; auto). assert (Ij : In j L0) by (rewrite <- EL, In_plug, In_nd; auto).
  assert (Nj : j <> HEAD) by (intros ->; auto).
  pose proof HL as S. rewrite <- EL, ids_plug in S. apply sorted_app in S as (_ & S & _). apply sorted_app in S as (S & _ & _).
  destruct d; cbn in S; apply sorted_app in S as (_ & S1 & S2).
  - assert (X : lo st0 j x) by (apply S2; [auto|left; auto]). destruct X as [_ [X|X]]; [tauto|]. unfold RBModel.ent_lt in *. eapply name_lt_trans; eauto.
  - apply StronglySorted_inv in S1 as [S3 S4]. rewrite Forall_forall in S4. specialize (S4 j Hj). destruct S4 as [_ [X|X]]; [tauto|].
    destruct (Z.eq_dec x e) as [-> |Nx]; [apply name_lt_asym; auto|].
    pose proof (L0_total x e Ix HeL Nx Hx He Hd) as Y. unfold RBModel.ent_lt in *. apply name_lt_asym. eapply name_lt_trans; eauto.
Qed.
Lemma ee : ent_lt st0 e e = false.
Proof. apply name_lt_irrefl. Qed.

Definition fit1 (f : frame) : Prop := (f_i f = HEAD -> f_d f = true) /\ (f_i f <> HEAD -> f_d f = ent_lt st0 (f_i f) e).
Definition fitp (k : list frame) : Prop := Forall fit1 k.
Definition mode (v : pvars) (k : list frame) (t : tree) : Prop :=
  (p_found v = false /\ In e (ids t) /\ fitp k) \/
  (p_found v = true /\ exists ka ce er kb m fm, k = ka ++ mkf false ce e er :: kb /\ Forall (fun f => f_d f = true /\ f_i f <> HEAD) ka /\ fitp kb /\
     nth_error kb m = Some fm /\ (m <= 2)%nat /\ p_egp v = Some (f_i fm)).
Record PL (n : nat) (st : store) (v : pvars) (k : list frame) (t : tree) : Prop := {
  pl_at : at_ st k t; pl_hd : hdp k; pl_ids : ids (plug k t) = L0; pl_keeps : keeps st0 st; pl_frame : forall j, ~ In j L0 -> st j = st0 j;
  pl_size : (tsize t < n)%nat;
  pl_ptr : match k with f0 :: k1 => p_node v = f_i f0 /\ p_dir v = f_d f0 /\ p_p v = top k1 | [] => False end;
  pl_mode : mode v k t }.

Lemma fitp_pushed : forall d c y x z k kn, pushed d (ids z) k kn -> ids (plug k (nd d c y x z)) = L0 -> x <> HEAD -> ent_lt st0 x e = d ->
  hdp k -> ~ In HEAD (ids z) -> fitp k -> fitp kn.
Proof.
  intros d c y x z k kn Hp EL Hx Hd Hh HH F. destruct Hp as [f f' k E1 E2 _ _|f k c0 s C Hs Ns|f k p B c0 c' n S0 E1 E2 Hn Nn Np Nk]; apply Forall_cons_iff in F as [F1 F2].
  - constructor; auto. unfold fit1. rewrite E1, E2. apply F1.
  - constructor; [|constructor; auto]. split; cbn; [tauto|]. intros _. symmetry. eapply away_dir; eauto.
  - destruct f as [fd fc fi fs]. cbn in E1, E2, Hn, F1. subst fd p. assert (Fp : d = ent_lt st0 fi e) by (apply F1; auto).
    constructor; [|constructor; auto]; [split; cbn; tauto|]. split; cbn; [tauto|]. intros _. symmetry.
    eapply (away_dir k); [exact EL|auto| |auto|exact Hn].
    intros X. pose proof HND as N. rewrite <- EL in N. destruct k as [|f1 k2]; [tauto|]. destruct (hdp_two _ _ _ Hh) as [_ Hk].
    change (NoDup (ids (plug (f1 :: k2) (nd d fc (nd d c y x z) fi fs)))) in N. apply NoDup_plug in N as (_ & _ & N).
    apply (N HEAD); [rewrite In_nd; auto|]. apply hdp_HEAD. auto.
Qed.

Lemma pop_loop_ok : forall n st v k t, PL n st v k t -> exists st' v' k' n', pop_loop upper n st e v = Ok (st', v', n') /\ PL n' st' v' k' Lf /\ p_found v' = true.
Proof.
  induction n as [|n IH]; intros st v k t H; pose proof H as [Ha Hh Hi Hk Hf Hs Hp Hm]; [lia|].
  destruct k as [|f0 k1]; [destruct Hp|]. destruct Hp as (P1 & P2 & P3). destruct (at_kid _ _ _ _ Ha) as (K1 & _).
  destruct t as [|c l x r].
  { exists st, v, (f0 :: k1), (S n). cbn [pop_loop]. rewrite P1, P2, K1. cbn [rid]. split; auto. split; auto.
    destruct Hm as [(_ & [] & _)|(M & _)]. auto. }
  cbn [pop_loop]. rewrite P1, P2, K1. cbn [rid]. rewrite P3.
  assert (Ed : RBModel.ent_lt upper st x e = ent_lt st0 x e) by (apply ent_lt_keeps; auto). rewrite Ed. set (d := ent_lt st0 x e) in *.
  set (y := if d then r else l). set (z := if d then l else r). assert (Et : Nd c l x r = nd d c y x z) by (unfold y, z; apply Nd_nd). rewrite Et in *.
  assert (NH : ~ In HEAD (ids (nd d c y x z))) by (eapply at_HEADp; eauto). rewrite In_nd in NH.
  assert (Hx : x <> HEAD) by (intros ->; auto). assert (HHz : ~ In HEAD (ids z)) by tauto.
  destruct (push_ok upper st f0 k1 d c y x z Ha Hh) as (st' & kn & c' & z' & Pp & Nn & Aa & Hd & Ii & Kk & Fr & Pu).
  { intros i j A B Ni Nj E. rewrite Hi in A, B. destruct (Hk i) as (N1 & _), (Hk j) as (N2 & _). rewrite N1, N2 in E. apply L0_names; auto. }
  rewrite Pp. cbn [bind]. destruct kn as [|g kn']; [tauto|].
  apply IH with (k := mkf d c' x z' :: g :: kn') (t := y). constructor; auto.
  - rewrite Ii. auto.
  - eapply keeps_trans; eauto.
  - intros j Hj. rewrite Fr by (rewrite Hi; auto). auto.
  - rewrite (tsize_nd upper L0) in Hs. lia.
  - assert (Ix : In x L0) by (rewrite <- Hi, In_plug, In_nd; auto).
    destruct Hm as [(M1 & M2 & M3)|(M1 & ka & ce & er & kb & m & fm & M2 & M3 & M4 & M5 & M6 & M7)].
    + pose proof (fitp_pushed _ _ _ _ _ _ _ Pu Hi Hx eq_refl Hh HHz M3) as Fk. unfold mode. cbn [p_found p_egp]. rewrite M1. cbn [orb].
      destruct (x =? e) eqn:Ex.
      * assert (x = e) by lia. subst x. right. split; auto. assert (Dd : d = false) by apply ee.
        assert (X : exists m fm, nth_error (g :: kn') m = Some fm /\ (m <= 2)%nat /\ (match top k1 with Some g => Some g | None => Some HEAD end) = Some (f_i fm)).
        { remember (f0 :: k1) as kk. remember (g :: kn') as kn. destruct Pu as [f f' k E1 E2 _ _|f k c0 s C Hs' Ns|f k p B c0 c2 n0 S0 E1 E2 Hn Nn' Np Nk]; injection Heqkk as -> ->.
          - destruct k1 as [|f1 k2]; [exists O, f'|exists 1%nat, f1]; cbn; repeat split; auto. rewrite E2. destruct (hdp_one _ Hh) as (? & ->). auto.
          - destruct k1 as [|f1 k2]; [exists 1%nat, f0|exists 2%nat, f1]; cbn; repeat split; auto. destruct (hdp_one _ Hh) as (? & ->). auto.
          - destruct k1 as [|f1 k2]; [tauto|]. exists 2%nat, f1. cbn. auto. }
        destruct X as (m & fm & X1 & X2 & X3). exists [], c', z', (g :: kn'), m, fm. rewrite Dd. cbn [app]. repeat split; auto.
      * left. split; auto. split.
        { rewrite In_nd in M2. destruct M2 as [M2|[M2|M2]]; [lia|auto|]. exfalso.
          pose proof (away_dir _ _ _ _ _ _ _ Hi Hx HHz eq_refl M2) as X. rewrite ee in X.
          assert (Nx : x <> e) by lia. pose proof (L0_total x e Ix HeL Nx Hx He (eq_sym X)) as Y.
          pose proof HL as S. rewrite <- Hi, ids_plug in S. apply sorted_app in S as (_ & S & _). apply sorted_app in S as (S & _ & _).
          fold d in X. rewrite <- X in S. cbn in S. apply sorted_app in S as (_ & S & _). apply StronglySorted_inv in S as [S3 S4]. rewrite Forall_forall in S4.
          destruct (S4 e M2) as [_ [W|W]]; [tauto|]. unfold d in X. congruence. }
        { constructor; auto. split; cbn; [tauto|auto]. }
    + (* past the entry: every step is to the right *)
      assert (Dd : d = true).
      { pose proof HL as S. rewrite <- Hi, ids_plug in S. apply sorted_app in S as (_ & S & _). apply sorted_app in S as (_ & _ & S).
        assert (X : lo st0 x e). { apply S; [rewrite In_nd; auto|]. rewrite M2. clear. induction ka as [|a ka IH]; cbn; [left; auto|]. destruct (f_d a); auto. right. apply in_or_app. auto. }
        destruct X as [_ [X|X]]; [tauto|exact X]. }
      assert (Nx : (x =? e) = false). { destruct (x =? e) eqn:X; auto. assert (x = e) by lia. subst x. unfold d in Dd. rewrite ee in Dd. discriminate. }
      right. cbn [p_found p_egp]. rewrite M1, Nx. split; auto.
      assert (Fx : f_d (mkf d c' x z') = true /\ f_i (mkf d c' x z') <> HEAD) by (cbn; auto).
      remember (f0 :: k1) as kk. remember (g :: kn') as kn.
      destruct Pu as [f f' k E1 E2 E3 E4|f k c0 s C Hs' Ns|f k p B c0 c2 n0 S0 E1 E2 Hn Nn' Np Nk]; injection Heqkk as -> ->; destruct ka as [|a ka]; cbn [app] in M2; injection M2 as -> ->; try (apply Forall_cons_iff in M3 as [[m1 m2] m3]).
      * cbn in E1, E2, E4. rewrite Dd in *. destruct f' as [fd fc fi fs]. cbn in *. subst. rewrite E4 by discriminate.
        exists [mkf true c' x z'], fc, er, kb, m, fm. repeat split; auto.
      * exists (mkf d c' x z' :: f' :: ka), ce, er, kb, m, fm. repeat split; auto. constructor; auto. constructor; auto. rewrite E1, E2. auto.
      * exists [mkf d c' x z'; mkf d c0 s C], ce, er, kb, m, fm. repeat split; auto.
      * exists (mkf d c' x z' :: mkf d c0 s C :: a :: ka), ce, er, kb, m, fm. repeat split; auto.
      * cbn in E1. rewrite Dd in E1. discriminate.
      * exists (mkf d c' x z' :: mkf d c0 p B :: mkf d c2 n0 S0 :: ka), ce, er, kb, m, fm. repeat split; auto.
Qed.
End Loop.

(** ** The end of pop *)
Lemma name_lt_nil : forall upper a, name_lt upper a [] = false.
Proof.
  intros. unfold name_lt. destruct (zlen a =? zlen []) eqn:E.
  - destruct a; [apply lex_irrefl|]. unfold zlen in E. cbn in E. lia.
  - pose proof (zlen_nonneg _ a). unfold zlen in *. cbn in *. lia.
Qed.

Lemma fep_ok : forall upper m kb st t e depth par fm, at_ st kb t -> rid t = Some e ->
  Forall (fun f => f_i f <> e /\ f_d f = negb (ent_lt upper st e (f_i f))) kb -> nth_error kb m = Some fm -> (m + 1 < depth)%nat ->
  find_entry_parent upper depth st par (Some (f_i fm)) e = Ok (top kb).
Proof.
  intros upper m. induction m as [|m IH]; intros kb st t e depth par fm A E F N D.
  - destruct kb as [|f kb]; [discriminate|]. injection N as ->. apply Forall_cons_iff in F as [[F1 F2] _].
    destruct depth as [|[|depth]]; [lia|lia|]. cbn [find_entry_parent]. replace (f_i fm =? e) with false by lia. rewrite <- F2.
    destruct (at_kid _ _ _ _ A) as (-> & _). rewrite E. cbn [find_entry_parent]. rewrite Z.eqb_refl. auto.
  - destruct kb as [|f kb]; [discriminate|]. cbn in N.
    assert (X : exists f', nth_error (f :: kb) m = Some f' /\ kid st (f_i fm) (f_d fm) = Some (f_i f')).
    { clear -A N. revert f kb t A N. induction m as [|m IH]; intros f kb t A N.
      - destruct kb as [|g kb]; [discriminate|]. injection N as ->. exists f. split; auto. destruct (at_kid st fm kb (fill f t) A) as (-> & _). apply rid_nd.
      - destruct kb as [|g kb]; [discriminate|]. cbn in N. destruct (IH g kb (fill f t) A N) as (f' & X1 & X2). exists f'. auto. }
    destruct X as (f' & N' & K). destruct depth as [|depth]; [lia|]. cbn [find_entry_parent].
    assert (Ff : f_i fm <> e /\ f_d fm = negb (ent_lt upper st e (f_i fm))).
    { rewrite Forall_forall in F. apply F. right. eapply nth_error_In; eauto. }
    destruct Ff as [F1 F2]. replace (f_i fm =? e) with false by lia. rewrite <- F2, K. apply IH with (t := t); auto. lia.
Qed.

Lemma hdp_plug : forall k t, hdp k -> exists c t', plug k t = Nd c Lf HEAD t'.
Proof.
  intros k t H. revert t. induction H as [c|f k Hf H IH]; intros t; cbn; [exists c, t; auto|apply IH].
Qed.
Lemma hdp_pre : forall k, hdp k -> exists l, pre k = HEAD :: l.
Proof. intros k H. induction H as [c|f k Hf H (l & IH)]; cbn; [exists []; auto|]. rewrite IH. destruct (f_d f); cbn; eauto. Qed.

(** what removing [e] from the children [t] of [par] may change *)
Record removed (upper : list Z -> list Z) (st : store) (par e : Z) (t : tree) (st' : store) (t' : tree) : Prop := {
  rm_holds : holds st' par t'; rm_ids : exists A B, ids t = A ++ e :: B /\ ids t' = A ++ B; rm_sorted : sorted upper st' (ids t');
  rm_root : ~ In 0 (ids t) -> tred t' = false;
  rm_names : forall j, j <> HEAD -> d_name (st' j) = d_name (st j) /\ d_kind (st' j) = d_kind (st j);
  rm_childs : forall j, j <> HEAD -> j <> par -> d_child (st' j) = d_child (st j);
  rm_links : d_left (st' e) = None /\ d_right (st' e) = None;
  rm_frame : forall j, j <> HEAD -> j <> par -> ~ In j (ids t) -> st' j = st j;
  rm_par : st' par = set_child st par (rid t') par }.

Lemma pop_ok : forall upper st par e maxn t, holds st par t -> sorted upper st (ids t) -> In e (ids t) -> zlen (ids t) < maxn ->
  exists st' t', pop upper st par e maxn = Ok st' /\ removed upper st par e t st' t'.
Proof.
  intros upper st par e maxn t [Hc Hr Hn Hs HH Hp] So He Hm. unfold pop. rewrite Hc. set (st0 := supd st HEAD (new_head (rid t))).
  assert (S0 : forall j, j <> HEAD -> st0 j = st j) by (intros; apply supd_other; auto).
  set (L0 := HEAD :: ids t).
  assert (NL : NoDup L0) by (constructor; auto).
  assert (HeH : e <> HEAD) by (intros ->; auto).
  assert (HL : StronglySorted (lo upper st0) L0).
  { apply sorted_head; auto. eapply sorted_names; [|exact So]. intros j Hj. rewrite S0; auto. intros ->. auto. }
  assert (HeL : In e L0) by (right; auto).
  assert (P0 : PL upper st0 e L0 (Z.to_nat maxn) st0 (mkpv HEAD None None true false None) [mkf true true HEAD Lf] t).
  { constructor; auto.
    - split; [|exact NL]. change (rep st0 (Nd true Lf HEAD t)). cbn [rep]. unfold st0 at 1 2 3. rewrite supd_same. cbn [new_head d_red d_left d_right]. repeat split; auto.
      eapply rep_ext; [exact Hr|]. intros j Hj. apply S0. intros ->. auto.
    - constructor.
    - apply keeps_refl.
    - rewrite ids_length in Hm. lia.
    - left. cbn. split; auto. split; auto. constructor; [|constructor]. split; cbn; auto. intros X. destruct (X eq_refl). }
  destruct (pop_loop_ok upper st0 e L0 HL NL HeH HeL _ _ _ _ _ P0) as (st1 & v & k & more & LP & [Ha Hh Hi Hk Hf Hz Hv Hmo] & Fd).
  rewrite LP. cbn [bind]. rewrite Fd. cbv iota.
  assert (Em : Nat.eqb more 0 = false) by (apply Nat.eqb_neq; lia). rewrite Em. cbn [negb]. cbv iota.
  destruct Hmo as [(X & _)|(_ & ka & ce & er & kb & m & fm & Ek & Fa & Fb & Nm & Lm & Eg)]; [congruence|].
  rewrite Eg.
  set (E := mkf false ce e er) in *.
  assert (Ata : at_ st1 kb (fill E (plug ka Lf))).
  { subst k. unfold at_ in *. rewrite plug_app in Ha. exact Ha. }
  set (tE := fill E (plug ka Lf)) in *. assert (rE : rid tE = Some e) by apply rid_nd.
  assert (EL0 : ids (plug kb tE) = L0) by (rewrite <- Hi, Ek, plug_app; auto).
  assert (Hkb : hdp kb).
  { subst k. clear -Hh HeH. induction ka as [|a ka IH]; cbn in Hh.
    - inversion Hh; subst; auto.
    - apply IH. destruct ka; cbn in *; inversion Hh; subst; auto. }
  assert (NdE : NoDup (ids tE) /\ NoDup (cids kb) /\ forall j, In j (ids tE) -> ~ In j (cids kb)) by (apply NoDup_plug; rewrite EL0; auto).
  destruct NdE as (NdE & NdK & NdX).
  assert (Ine : In e (ids tE)) by (apply rid_In; auto).
  assert (Fk : Forall (fun f => f_i f <> e /\ f_d f = negb (ent_lt upper st1 e (f_i f))) kb).
  { apply Forall_forall. intros f Hf'. assert (Ic : In (f_i f) (cids kb)).
    { clear -Hf'. induction kb as [|g kb IH]; [destruct Hf'|]. cbn. destruct Hf' as [-> |H]; auto. right. apply in_or_app. auto. }
    assert (Ne : f_i f <> e) by (intros X; apply (NdX e Ine); congruence). split; auto.
    unfold fitp in Fb. rewrite Forall_forall in Fb. destruct (Fb f Hf') as [B1 B2]. rewrite (ent_lt_keeps _ _ _ Hk).
    destruct (Z.eq_dec (f_i f) HEAD) as [X|X].
    - rewrite X, (B1 X). unfold ent_lt. unfold st0 at 2. rewrite supd_same. cbn [new_head d_name]. rewrite name_lt_nil. auto.
    - rewrite (B2 X). assert (Il : In (f_i f) L0) by (rewrite <- EL0, In_plug; auto).
      destruct (ent_lt upper st0 (f_i f) e) eqn:Y.
      + unfold ent_lt in *. rewrite (name_lt_asym _ _ _ Y). auto.
      + rewrite (L0_total upper st0 L0 HL (f_i f) e Il HeL Ne X HeH Y). auto. }
  rewrite (fep_ok upper m kb st1 tE e 4 None fm Ata rE Fk Nm) by lia. cbn [bind].
  destruct kb as [|f kb']; [inversion Hkb|]. cbn [top deref bind].
  rewrite (dir_ok st1 f kb' tE e Ata rE). cbn [bind].
  pose proof (at_HEADp _ _ _ Ata Hkb) as NHE. destruct (at_sub _ _ _ Ata) as [RE _].
  pose proof (proj1 (rep_nd st1 false ce (plug ka Lf) e er) RE) as (e1 & e2 & e3 & e4 & e5). cbn [negb] in e3.
  pose proof (proj1 (NoDup_nd false ce (plug ka Lf) e er) NdE) as (n1 & n2 & n3 & n4 & n5).
  assert (AllR : post ka = []).
  { clear -Fa. induction ka as [|a ka IH]; cbn; auto. apply Forall_cons_iff in Fa as [[-> _] Fa]. auto. }
  (* the subtree that replaces the one of e *)
  set (isNone := fun v : option Z => match v with None => true | Some _ => false end).
  assert (Core : exists st2 tN, (if p_node v =? e then Ok (set_kid st1 (f_i f) (f_d f) (kid st1 e (isNone (kid st1 e false))))
    else
      do p <- deref (p_p v) ;;
      let a := set_kid st1 p (same (kid st1 p true) (Some (p_node v))) (kid st1 (p_node v) (isNone (kid st1 (p_node v) false))) in
      let b := set_kid a (p_node v) false (kid a e false) in
      let c := set_kid b (p_node v) true (kid b e true) in
      Ok (set_kid (set_red c (p_node v) (d_red (c e))) (f_i f) (f_d f) (Some (p_node v)))) = Ok st2 /\
    at_ st2 (f :: kb') tN /\ ids tN = ids (plug ka Lf) ++ ids er /\ keeps st1 st2 /\ (forall j, ~ In j L0 -> st2 j = st1 j) ).
  { assert (Out : forall st' r0, (forall j, ~ In j (ids tE) -> st' j = st1 j) -> forall j, ~ In j L0 -> set_kid st' (f_i f) (f_d f) r0 j = st1 j).
    { intros st' r0 O j Hj. rewrite <- EL0, In_plug in Hj. rewrite set_kid_other; [apply O; tauto|]. intros ->. apply Hj. right. left. auto. }
    destruct ka as [|[dx cx x zx] ka'].
    - (* no predecessor *)
      cbn [app] in Ek. rewrite Ek in Hv. destruct Hv as (v1 & _). cbn [f_i E] in v1. rewrite v1, Z.eqb_refl. rewrite e2. cbn [plug rid isNone]. rewrite e3.
      eexists _, er. split; [reflexivity|]. split; [|split; [auto|split; [apply keeps_set_kid|]]].
      + eapply at_shrink; [exact Ata|exact e5|exact n4| |auto|exact NHE]. intros j Hj. unfold tE, fill. rewrite In_nd. auto.
      + apply Out. auto.
    - cbn [app] in Ek. rewrite Ek in Hv. destruct Hv as (v1 & _ & v3). cbn [f_i] in v1. rewrite v1, v3.
      apply Forall_cons_iff in Fa as [[fa1 fa2] Fa']. cbn [f_d f_i] in fa1, fa2. subst dx.
      set (tx := fill (mkf true cx x zx) Lf) in *. assert (Etx : plug (mkf true cx x zx :: ka') Lf = plug ka' tx) by reflexivity. rewrite Etx in *.
      assert (TE : tE = nd false ce (plug ka' tx) e er) by reflexivity.
      assert (Etx' : tx = Nd cx zx x Lf) by reflexivity.
      assert (Ixp : In x (ids (plug ka' tx))) by (rewrite In_plug, Etx'; left; cbn; apply in_or_app; right; left; auto).
      assert (Nxe : x <> e) by (intros Q; apply n1; rewrite <- Q; auto). replace (x =? e) with false by lia.
      set (kE := ka' ++ E :: f :: kb') in *.
      assert (AtE : at_ st1 kE tx) by (unfold at_, kE; rewrite plug_app; exact Ata).
      assert (Tk : exists fp kE', kE = fp :: kE') by (unfold kE; destruct ka'; cbn; eauto). destruct Tk as (fp & kE' & Tk).
      rewrite Tk in *. cbn [top deref bind]. cbv zeta.
      destruct (at_kid _ _ _ _ AtE) as (kp1 & kp2 & _). pose proof (at_other _ _ _ _ x AtE eq_refl) as No.
      assert (Dp : same (kid st1 (f_i fp) true) (Some x) = f_d fp).
      { destruct (f_d fp); cbn [negb] in kp2; rewrite ?kp1, ?kp2; [apply same_refl|]. destruct (same (rid (f_s fp)) (Some x)) eqn:Q; auto. apply same_iff in Q. tauto. }
      rewrite Dp.
      destruct (at_sub _ _ _ AtE) as [Rx NDx]. assert (Rx' := Rx). rewrite Etx' in Rx', NDx. cbn [rep] in Rx'. destruct Rx' as (q1 & q2 & q3 & q4 & _). cbn [rid] in q3.
      assert (Vx : kid st1 x (isNone (kid st1 x false)) = rid zx).
      { change (kid st1 x false) with (d_left (st1 x)). rewrite q2. destruct (rid zx) eqn:Q; cbn; [congruence|]. exact q3. }
      rewrite Vx. pose proof (proj1 (NoDup_nd false cx zx x Lf) NDx) as (u1 & _ & u3 & _).
      assert (NHx : ~ In HEAD (ids tx)). { intros Q. apply NHE. rewrite TE, In_nd. right. left. rewrite In_plug. auto. }
      assert (Aa : at_ (set_kid st1 (f_i fp) (f_d fp) (rid zx)) (fp :: kE') zx).
      { eapply at_shrink; [exact AtE|exact q4|exact u3| |auto|exact NHx]. intros j Hj. rewrite Etx'. cbn. apply in_or_app. auto. }
      set (sa := set_kid st1 (f_i fp) (f_d fp) (rid zx)) in *.
      assert (AaE : at_ sa (f :: kb') (fill E (plug ka' zx))).
      { unfold at_ in *. rewrite <- Tk in Aa. unfold kE in Aa. rewrite plug_app in Aa. exact Aa. }
      destruct (at_sub _ _ _ AaE) as [Ra NDa]. pose proof (proj1 (rep_nd sa false ce (plug ka' zx) e er) Ra) as (a1 & a2 & a3 & a4 & a5). cbn [negb] in a3.
      pose proof (proj1 (NoDup_nd false ce (plug ka' zx) e er) NDa) as (b1 & b2 & b3 & b4 & b5).
      set (sb := set_kid sa x false (kid sa e false)). set (sc := set_kid sb x true (kid sb e true)).
      set (sd := set_red sc x (d_red (sc e))).
      assert (Od : forall j, j <> x -> sd j = sa j) by (intros j Hj; unfold sd, sc, sb; rewrite set_red_other, !set_kid_other; auto).
      assert (Nxz : ~ In x (ids (plug ka' zx))).
      { rewrite In_plug. intros [Q|Q]; [auto|]. pose proof (proj1 (NoDup_plug ka' tx) n3) as (_ & _ & w). apply (w x); auto. rewrite Etx'. cbn. apply in_or_app. right. left. auto. }
      assert (Nxr : ~ In x (ids er)) by (apply n5; auto).
      assert (Hrid : forall u, ~ In HEAD (ids u) -> link_of (rid u) = rid u) by apply link_rid.
      assert (NHz : ~ In HEAD (ids (plug ka' zx))) by (intros Q; apply (at_HEADp _ _ _ AaE Hkb); unfold fill; rewrite In_nd; auto).
      assert (NHr : ~ In HEAD (ids er)) by (intros Q; apply NHE; rewrite TE, In_nd; auto).
      set (tN := Nd ce (plug ka' zx) x er).
      assert (Rd : rep sd tN).
      { cbn [rep tN]. split; [|split; [|split]].
        - unfold sd. rewrite red_set_red, Z.eqb_refl. unfold sc, sb. rewrite !red_set_kid. auto.
        - change (kid sd x false = rid (plug ka' zx)). unfold sd. rewrite kid_set_red. unfold sc. rewrite (kid_set_kid_neg' sb x false). unfold sb. rewrite kid_set_kid, a2. auto.
        - change (kid sd x true = rid er). unfold sd. rewrite kid_set_red. unfold sc. rewrite kid_set_kid. unfold sb. rewrite kid_set_kid_other by auto. rewrite a3. auto.
        - split; eapply rep_ext; eauto; intros j Hj; apply Od; intros ->; auto. }
      eexists _, tN. split; [reflexivity|]. split; [|split; [|split]].
      + change (Some x) with (rid tN). eapply at_shrink; [exact Ata|exact Rd| | | |exact NHE].
        * unfold tN. cbn [ids]. apply (NoDup_nd false ce). repeat split; auto.
        * intros j Hj. rewrite TE, In_nd. unfold tN in Hj. cbn [ids] in Hj. rewrite in_app_iff in Hj. destruct Hj as [Hj|[Hj|Hj]].
          { right. left. rewrite In_plug in Hj |- *. destruct Hj as [Hj|Hj]; auto. left. rewrite Etx'. cbn. apply in_or_app. auto. }
          { subst j. auto. }
          { auto. }
        * intros j Hj. assert (j <> x) by (intros ->; apply Hj; rewrite TE, In_nd; auto). rewrite Od by auto. unfold sa. apply set_kid_other. intros ->. apply Hj.
          rewrite TE, In_nd. unfold kE in Tk. destruct ka' as [|g ka']; cbn in Tk; injection Tk as <- _; [auto|]. right. left. rewrite In_plug. right. left. auto.
      + unfold tN. cbn [ids]. rewrite !ids_plug. cbn [post f_d] in AllR. rewrite AllR, Etx'. cbn [ids]. repeat (rewrite <- ?app_assoc, ?app_nil_r; cbn [app]). auto.
      + eapply keeps_trans; [|apply keeps_set_kid]. unfold sd. eapply keeps_trans; [|apply keeps_set_red]. unfold sc, sb, sa. repeat (eapply keeps_trans; [|apply keeps_set_kid]). apply keeps_refl.
      + apply Out. intros j Hj. assert (j <> x) by (intros ->; apply Hj; rewrite TE, In_nd; auto). rewrite Od by auto. unfold sa. apply set_kid_other. intros ->. apply Hj.
        rewrite TE, In_nd. unfold kE in Tk. destruct ka' as [|g ka']; cbn in Tk; injection Tk as <- _; [auto|]. right. left. rewrite In_plug. right. left. auto. }
  destruct Core as (st2 & tN & C1 & C2 & C3 & C4 & C5). cbv zeta.
  match goal with |- exists s t, bind ?r _ = _ /\ _ => replace r with (@Ok store st2) by (symmetry; exact C1) end. cbn [bind].
  destruct (hdp_plug (f :: kb') tN Hkb) as (ch & t' & Et'). destruct (hdp_pre _ Hkb) as (lp & Ep).
  assert (EA : ids t = lp ++ ids (plug ka Lf) ++ e :: ids er ++ post (f :: kb')).
  { pose proof EL0 as Q. rewrite ids_plug, Ep in Q. injection Q as Q. rewrite <- Q. unfold tE, fill, nd, E. cbn [f_d f_c f_i f_s ids]. rewrite <- !app_assoc. auto. }
  assert (EB : ids t' = lp ++ ids (plug ka Lf) ++ ids er ++ post (f :: kb')).
  { pose proof (f_equal ids Et') as Q. rewrite ids_plug, Ep in Q. cbn in Q. injection Q as Q. rewrite <- Q, C3, <- !app_assoc. auto. }
  destruct C2 as [C2r C2n]. rewrite Et' in C2r, C2n. cbn [rep ids app] in C2r, C2n. destruct C2r as (_ & _ & r1 & _ & r2). inversion C2n as [|? ? d1 d2]; subst x l.
  assert (Sub : forall j, In j (ids t') -> In j (ids t)).
  { intros j. rewrite EA, EB, !in_app_iff. cbn [In]. rewrite !in_app_iff. tauto. }
  assert (Net' : ~ In e (ids t')).
  { intros X. rewrite EB in X. rewrite EA in Hn. rewrite app_assoc in X, Hn. apply NoDup_remove_2 in Hn. auto. }
  assert (Npar : ~ In par (ids t')) by auto.
  assert (Nep : e <> par) by (intros ->; auto).
  set (st3 := set_child st2 par (d_right (st2 HEAD))).
  assert (C6 : d_child (st3 par) = rid t') by (unfold st3, set_child; rewrite supd_same; auto).
  set (st4 := match d_child (st3 par) with Some c => if c =? 0 then st3 else set_red st3 c false | None => st3 end).
  set (t4 := match rid t' with Some c => if c =? 0 then t' else recolor c false t' | None => t' end).
  assert (R4 : rep st4 t4 /\ ids t4 = ids t' /\ rid t4 = rid t' /\ keeps st3 st4 /\ (forall j, ~ In j (ids t') -> st4 j = st3 j) /\ (~ In 0 (ids t) -> tred t4 = false)).
  { assert (R3 : rep st3 t') by (eapply rep_ext; [exact r2|]; intros j Hj; unfold st3; apply set_child_other; intros ->; auto).
    unfold st4, t4. rewrite C6. destruct t' as [|ct lt it rt]; cbn [rid].
    - repeat split; auto.
    - destruct (it =? 0) eqn:Z0.
      + repeat split; try apply R3; auto. intros X. exfalso. apply X, Sub. cbn. apply in_or_app. right. left. lia.
      + rewrite ids_recolor, rid_recolor. split; [apply rep_recolor; auto|]. split; auto. split; auto. split; [apply keeps_set_red|]. split.
        * intros j Hj. apply set_red_other. intros ->. apply Hj. cbn. apply in_or_app. right. left. auto.
        * intros _. cbn. rewrite Z.eqb_refl. auto. }
  destruct R4 as (R4 & I4 & D4 & K4 & F4 & T4).
  assert (Ee : forall w, d_left (set_kid w e false None e) = None).
  { intros w. change (kid (set_kid w e false None) e false = None). rewrite kid_set_kid. auto. }
  exists (set_kid (set_kid st4 e false None) e true None), t4. split; auto.
  assert (O5 : forall j, j <> e -> set_kid (set_kid st4 e false None) e true None j = st4 j) by (intros j Hj; rewrite !set_kid_other; auto).
  assert (Nmf : forall j, j <> HEAD -> d_name (set_kid (set_kid st4 e false None) e true None j) = d_name (st j) /\ d_kind (set_kid (set_kid st4 e false None) e true None j) = d_kind (st j)).
  { intros j Hj. destruct (keeps_set_kid (set_kid st4 e false None) e true None j) as (-> & -> & _). destruct (keeps_set_kid st4 e false None j) as (-> & -> & _).
    destruct (K4 j) as (-> & -> & _). unfold st3. rewrite <- (S0 j Hj). destruct (Hk j) as (<- & <- & _). destruct (C4 j) as (<- & <- & _).
    unfold set_child, supd. destruct (j =? par) eqn:Q; auto. assert (j = par) by lia. subst. auto. }
  constructor.
  - constructor; rewrite ?I4, ?D4; auto.
    + rewrite O5 by auto. destruct (K4 par) as (_ & _ & ->). auto.
    + eapply rep_ext; [exact R4|]. intros j Hj. apply O5. intros ->. rewrite I4 in Hj. auto.
  - rewrite I4. exists (lp ++ ids (plug ka Lf)), (ids er ++ post (f :: kb')). rewrite <- !app_assoc. auto.
  - rewrite I4. eapply sorted_names with (st := st).
    + intros j Hj. apply Nmf. intros ->. auto.
    + unfold sorted in *. rewrite EA in So. rewrite EB. rewrite app_assoc in So |- *. apply sorted_app in So as (s1 & s2 & s3). apply StronglySorted_inv in s2 as [s2 _].
      apply sorted_app. split; auto. split; auto. intros a b Hx Hy. apply s3; auto. right. auto.
  - auto.
  - exact Nmf.
  - intros j J1 J2. destruct (keeps_set_kid (set_kid st4 e false None) e true None j) as (_ & _ & ->). destruct (keeps_set_kid st4 e false None j) as (_ & _ & ->).
    destruct (K4 j) as (_ & _ & ->). unfold st3. rewrite set_child_other by auto. destruct (C4 j) as (_ & _ & ->). destruct (Hk j) as (_ & _ & ->). rewrite S0; auto.
  - split; [|change (kid (set_kid (set_kid st4 e false None) e true None) e true = None); rewrite kid_set_kid; auto].
    change (kid (set_kid (set_kid st4 e false None) e true None) e false = None). rewrite (kid_set_kid_neg' _ e false). rewrite kid_set_kid. auto.
  - intros j J1 J2 J3. rewrite O5 by (intros ->; auto). rewrite F4 by auto. unfold st3. rewrite set_child_other by auto.
    assert (~ In j L0) by (intros [X|X]; auto). rewrite C5, Hf, S0; auto.
  - rewrite O5 by auto. rewrite F4 by auto. unfold st3, set_child. rewrite !supd_same. rewrite D4, r1. assert (~ In par L0) by (intros [X|X]; auto). rewrite C5, Hf, S0; auto.
Qed.
