(** Insertion keeps the search tree: the loop invariant of [insert] *)
From Verif Require Import Base BaseFacts RBModel RBTree RBOrder.
From Coq Require Import ZArith List Bool Lia Permutation Sorted.
Import ListNotations.
Open Scope Z_scope.
Notation length := List.length.

(** ** Colour invariants *)
(** no red entry has a red child *)
Fixpoint nrr (t : tree) : Prop :=
  match t with Lf => True | Nd c l _ r => (c = true -> tred l = false /\ tred r = false) /\ nrr l /\ nrr r end.
Fixpoint nrrc (k : list frame) (h : bool) : Prop :=
  match k with
  | [] => True
  | f :: k' => (f_i f <> HEAD -> f_c f = true -> h = false /\ tred (f_s f) = false) /\ nrr (f_s f) /\ nrrc k' (f_c f)
  end.
(** every path has [n] black entries *)
Fixpoint bh (t : tree) (n : nat) : Prop :=
  match t with
  | Lf => n = O
  | Nd c l _ r => if c then bh l n /\ bh r n else exists m, n = S m /\ bh l m /\ bh r m
  end.
Fixpoint bhc (k : list frame) (n : nat) : Prop :=
  match k with
  | [] => True
  | f :: k' => f_i f <> HEAD -> bh (f_s f) n /\ bhc k' (if f_c f then n else S n)
  end.
Lemma nrr_nd : forall d c x i y, nrr (nd d c x i y) <-> (c = true -> tred x = false /\ tred y = false) /\ nrr x /\ nrr y.
Proof. intros. destruct d; cbn; tauto. Qed.
Lemma bh_nd : forall d c x i y n, bh (nd d c x i y) n <-> if c then bh x n /\ bh y n else exists m, n = S m /\ bh x m /\ bh y m.
Proof. intros. destruct d, c; cbn; try tauto. split; intros (m & A & B & C); exists m; auto. Qed.
Lemma nrrc_false : forall k h, nrrc k h -> nrrc k false.
Proof. destruct k as [|f k]; cbn; auto. intros h (A & B & C). repeat split; auto; apply A; auto. Qed.

(** contexts whose last frame is the false root *)
Definition Hf : frame := mkf true true HEAD Lf.
Inductive hd : list frame -> Prop :=
| hd_1 : hd [Hf]
| hd_c : forall f k, f_i f <> HEAD -> hd k -> hd (f :: k).
Lemma hd_one : forall f, hd [f] -> f = Hf.
Proof. intros f H. inversion H as [|? ? ? H2]; subst; auto. inversion H2. Qed.
Lemma hd_two : forall f g k, hd (f :: g :: k) -> f_i f <> HEAD /\ hd (g :: k).
Proof. intros f g k H. inversion H; subst; auto. Qed.
Lemma hd_plug : forall k t (P : Prop), hd k -> nrr t -> nrrc k (tred t) -> (P -> exists n, bh t n /\ bhc k n) ->
  exists t', plug k t = Nd true Lf HEAD t' /\ nrr t' /\ (P -> exists n, bh t' n).
Proof.
  intros k t P H. revert t. induction H as [|f k Hf0 H IH]; intros t N NC B; cbn.
  - exists t. split; [reflexivity|]. split; auto. intros p. destruct (B p) as (n & Bn & _). eauto.
  - cbn in NC. destruct NC as (A1 & A2 & A3). apply IH.
    + unfold fill. apply nrr_nd. split; auto. 
    + unfold fill. rewrite tred_nd. auto.
    + intros p. destruct (B p) as (n & B1 & B2). cbn in B2. destruct (B2 Hf0) as [B3 B4]. exists (if f_c f then n else S n). split; auto.
      unfold fill. apply bh_nd. destruct (f_c f); eauto.
Qed.
Lemma hd_HEAD : forall k, hd k -> In HEAD (cids k).
Proof. intros k H. induction H; cbn; auto. right. apply in_or_app. auto. Qed.

(** ** Reading pointers *)
Lemma same_refl : forall a, same a a = true.
Proof. destruct a; cbn; auto. apply Z.eqb_refl. Qed.
Lemma same_iff : forall a b, same a b = true <-> a = b.
Proof. destruct a, b; cbn; split; intros; try congruence; try discriminate. - f_equal. lia. - injection H as ->. apply Z.eqb_refl. Qed.
Lemma parent_kid : forall st x d, is_parent_of st x (kid st x d) = true.
Proof. intros. unfold is_parent_of. destruct d; rewrite same_refl; auto. apply orb_true_r. Qed.
Lemma at_kid : forall st f k t, at_ st (f :: k) t -> kid st (f_i f) (f_d f) = rid t /\ kid st (f_i f) (negb (f_d f)) = rid (f_s f) /\ d_red (st (f_i f)) = f_c f.
Proof. intros st f k t [A _]. apply rep_plug in A as [A _]. cbn in A. tauto. Qed.
Lemma rid_In : forall t x, rid t = Some x -> In x (ids t).
Proof. intros [|c l i r] x H; [discriminate|]. cbn in *. injection H as ->. apply in_or_app. right. left. auto. Qed.
Lemma at_other : forall st f k t x, at_ st (f :: k) t -> rid t = Some x -> rid (f_s f) <> Some x.
Proof. intros st f k t x [_ A] E F. apply NoDup_plug in A as (_ & _ & A). apply (A x (rid_In _ _ E)). cbn. right. apply in_or_app. left. apply rid_In. auto. Qed.
Lemma dir_ok : forall st f k t x, at_ st (f :: k) t -> rid t = Some x ->
  (if same (kid st (f_i f) false) (Some x) then Ok false else if same (kid st (f_i f) true) (Some x) then Ok true else Err CompoundError) = Ok (f_d f).
Proof.
  intros st f k t x A E. destruct (at_kid _ _ _ _ A) as (K1 & K2 & _). pose proof (at_other _ _ _ _ _ A E) as N. rewrite E in K1.
  destruct (f_d f); cbn [negb] in K2; rewrite K1, K2, same_refl; auto. destruct (same (rid (f_s f)) (Some x)) eqn:F; auto. apply same_iff in F. tauto.
Qed.

Lemma at_HEAD : forall st k t, at_ st k t -> hd k -> ~ In HEAD (ids t).
Proof. intros st k t [_ A] H X. apply NoDup_plug in A as (_ & _ & A). apply (A _ X). apply hd_HEAD. auto. Qed.
Lemma plug_ids : forall k t t', ids t' = ids t -> ids (plug k t') = ids (plug k t).
Proof. intros. rewrite !ids_plug. congruence. Qed.

(** a new leaf *)
Lemma at_insert : forall st f k e, at_ st (f :: k) Lf -> rep st (Nd true Lf e Lf) -> ~ In e (cids (f :: k)) -> e <> HEAD ->
  at_ (set_kid st (f_i f) (f_d f) (Some e)) (f :: k) (Nd true Lf e Lf).
Proof.
  intros st f k e [A B] R N Ne. apply rep_plug in A as [A1 _]. apply NoDup_plug in B as (_ & B2 & _). cbn in A1. destruct A1 as (a1 & a2 & a3 & a4 & a5).
  assert (F : e <> f_i f) by (intros ->; apply N; left; auto). cbn in B2. inversion B2 as [|? ? B3 B4]; subst. rewrite in_app_iff in B3. split.
  - apply rep_plug. split.
    + cbn [repc]. rewrite red_set_kid, kid_set_kid, kid_set_kid_neg, link_id by auto. cbn [rid]. repeat split; auto.
      * eapply rep_ext; eauto. intros j Hj. apply set_kid_other. intros ->. tauto.
      * eapply repc_ext; eauto. intros j Hj. apply set_kid_other. intros ->. tauto.
    + eapply rep_ext; eauto. intros j [<-|[]]. apply set_kid_other. auto.
  - apply NoDup_plug. cbn in *. split; [repeat constructor; tauto|]. split; auto. intros j [<-|[]] X. tauto.
Qed.

(** ** The invariant *)
Section Insert.
Variable upper : list Z -> list Z.
Notation ent_lt := (ent_lt upper). Notation lo := (lo upper).
Variables (st0 : store) (e : Z) (L0 : list Z) (P : Prop).

(** the geometry: the entries form the tree [plug k t] *)
Record geo (st : store) (k : list frame) (t : tree) (h : bool) (L : list Z) : Prop := {
  g_at : at_ st k t; g_hd : hd k; g_fits : fits upper st0 e k;
  g_nrr : nrr t; g_nrrc : nrrc k h; g_bh : P -> exists n, bh t n /\ bhc k n;
  g_ids : ids (plug k t) = L;
  g_keeps : keeps st0 st; g_frame : forall j, j <> e -> ~ In j L0 -> st j = st0 j;
  g_e : ~ In e L -> st e = st0 e;
  g_L : (L = L0 /\ ~ In e L) \/ (forall j, In j L <-> j = e \/ In j L0) }.

Definition settled (t : tree) : Prop := match t with Lf => False | Nd c l _ r => c = false /\ tred l = false /\ tred r = false end.
Definition dirof (x : Z) : bool := negb (ent_lt st0 e x).
Definition down (t : tree) : tree := match t with Lf => Lf | Nd _ l x r => if dirof x then r else l end.
Definition away (t : tree) : tree := match t with Lf => Lf | Nd _ l x r => if dirof x then l else r end.
Definition tsize (t : tree) : nat := length (ids t).

Definition PI (v : ivars) (k : list frame) (t : tree) : Prop :=
  match k with
  | [] => False
  | [_] => i_p v = None /\ i_gp v = None /\ i_ggp v = Some HEAD /\ t <> Lf /\ tred t = false
  | [f0; f1] => i_p v = Some (f_i f0) /\ i_dir v = f_d f0 /\ ((i_gp v = None /\ i_ggp v = Some HEAD) \/ (i_gp v = Some (f_i f1) /\ i_ggp v = None))
  | f0 :: f1 :: f2 :: k3 => i_p v = Some (f_i f0) /\ i_dir v = f_d f0 /\ i_gp v = Some (f_i f1) /\ i_ggp v = Some (f_i f2) /\
      (f_c f0 = true -> i_last v = f_d f1) /\ (f_c f0 = true -> match k3 with f3 :: _ => i_gggp v = Some (f_i f3) | [] => True end)
  end.
Definition C1 (k : list frame) (t : tree) : Prop :=
  match k with f0 :: _ => f_i f0 <> HEAD -> tred t = true -> tred (f_s f0) = true -> settled (down t) | [] => True end.
Definition C2 (k : list frame) (t : tree) : Prop :=
  match k with f0 :: f1 :: _ => f_c f0 = true -> (f_i f1 = HEAD \/ tred (f_s f1) = true) -> settled t | _ => True end.
Definition M (n : nat) (k : list frame) (t : tree) : Prop :=
  (tsize t < n)%nat \/ (tred t = true /\ (match k with f0 :: _ => f_c f0 = false | [] => False end) /\ (S (tsize (down t)) < n)%nat).
Definition LI (n : nat) (v : ivars) (k : list frame) (t : tree) : Prop := i_node v = rid t /\ PI v k t /\ C1 k t /\ C2 k t /\ M n k t.

(** ready to go down *)
Definition DC (n : nat) (k : list frame) (t : tree) : Prop :=
  match t with
  | Lf => False
  | Nd c _ x _ => let k' := mkf (dirof x) c x (away t) :: k in C1 k' (down t) /\ C2 k' (down t) /\ M n k' (down t)
  end.
Definition PP (v : ivars) (k : list frame) (c : bool) : Prop :=
  match k with
  | [] => False
  | [_] => (i_p v = None /\ i_gp v = None /\ i_ggp v = Some HEAD) \/ (i_p v = Some HEAD /\ i_gp v = None /\ i_ggp v = None)
  | f0 :: f1 :: k2 => i_p v = Some (f_i f0) /\ (c = true -> i_dir v = f_d f0) /\
      ((k2 = [] /\ i_gp v = None /\ i_ggp v = Some HEAD) \/
       (i_gp v = Some (f_i f1) /\ (c = true -> match k2 with f2 :: _ => i_ggp v = Some (f_i f2) \/ (i_ggp v = None /\ i_gggp v = Some (f_i f2)) | [] => True end)))
  end.

Lemma PI_PP : forall v k t c, PI v k t -> PP v k c.
Proof.
  intros v [|f0 [|f1 [|f2 k3]]] t c; cbn; auto.
  - tauto.
  - intros (A & B & [[C D]|[C D]]); repeat split; auto.
  - intros (A & B & C & D & E & F). repeat split; auto.
Qed.

Lemma Nd_down : forall c l x r, Nd c l x r = nd (dirof x) c (down (Nd c l x r)) x (away (Nd c l x r)).
Proof. intros. cbn. unfold nd. destruct (dirof x); auto. Qed.
Lemma tsize_Nd : forall c l x r, tsize (Nd c l x r) = S (tsize (down (Nd c l x r)) + tsize (away (Nd c l x r))).
Proof. intros. unfold tsize. cbn. rewrite app_length. cbn. destruct (dirof x); lia. Qed.

Lemma ent_lt_geo : forall st k t h L i j, geo st k t h L -> ent_lt st i j = ent_lt st0 i j.
Proof. intros. apply ent_lt_keeps. eapply g_keeps; eauto. Qed.

(** going down *)
Lemma down_ok : forall n st k c l x r v L, geo st k (Nd c l x r) c L -> PP v k c -> DC n k (Nd c l x r) -> x <> HEAD ->
  exists v', ins_down upper st e x v = Ok v' /\
    let k' := mkf (dirof x) c x (away (Nd c l x r)) :: k in geo st k' (down (Nd c l x r)) (tred (down (Nd c l x r))) L /\ LI n v' k' (down (Nd c l x r)).
Proof.
  intros n st k c l x r v L G HP HD Hx. set (t := Nd c l x r) in *. pose proof G as [Ga Gh Gf Gn Gc Gb Gi Gk Gfr Ge GL].
  assert (Et : t = nd (dirof x) c (down t) x (away t)) by apply Nd_down.
  assert (G' : geo st (mkf (dirof x) c x (away t) :: k) (down t) (tred (down t)) L).
  { rewrite Et in Ga, Gn, Gb, Gi. apply nrr_nd in Gn as (N1 & N2 & N3). constructor; auto.
    - constructor; auto.
    - constructor; auto.
    - cbn. split; auto.
    - intros p. destruct (Gb p) as (m & B1 & B2). rewrite bh_nd in B1. destruct c.
      + exists m. cbn. tauto.
      + destruct B1 as (m' & -> & B3 & B4). exists m'. cbn. auto. }
  assert (K : kid st x (dirof x) = rid (down t)) by (apply (at_kid _ _ _ _ (g_at _ _ _ _ _ G'))).
  unfold ins_down. rewrite (ent_lt_geo _ _ _ _ _ e x G). fold (dirof x).
  rewrite parent_kid. cbv iota.
  assert (A2 : (match i_p v with Some g => is_parent_of st g (Some x) | None => true end) = true).
  { assert (X : forall f k', k = f :: k' -> is_parent_of st (f_i f) (Some x) = true).
    { intros f k' ->. destruct (at_kid _ _ _ _ Ga) as (Y & _). change (Some x) with (rid t). rewrite <- Y. apply parent_kid. }
    destruct k as [|f0 [|f1 k2]]; cbn in HP; [tauto| |].
    - destruct HP as [(-> & _)|(-> & _)]; auto. rewrite (hd_one _ Gh) in *. apply (X Hf []). auto.
    - destruct HP as (-> & _). apply (X f0 (f1 :: k2)). auto. }
  rewrite A2. cbv iota.
  assert (A3 : (match (match i_gp v with Some g => Some g | None => i_ggp v end) with Some t0 => is_parent_of st t0 (i_p v) | None => true end) = true).
  { destruct k as [|f0 [|f1 k2]]; cbn in HP; [tauto| |].
    - destruct HP as [(-> & -> & ->)|(-> & -> & ->)]; auto. rewrite (hd_one _ Gh) in *.
      destruct (at_kid _ _ _ _ Ga) as (_ & Y & _). cbn in Y. unfold is_parent_of. cbn. rewrite Y. cbn. auto.
    - assert (X : is_parent_of st (f_i f1) (Some (f_i f0)) = true).
      { destruct (at_kid st f1 k2 (fill f0 t)) as (Y & _); [apply Ga|]. unfold fill in Y. rewrite rid_nd in Y. rewrite <- Y. apply parent_kid. }
      destruct HP as (-> & _ & [(-> & -> & ->)|(-> & _)]); auto.
      destruct (hd_two _ _ _ Gh) as [_ G2]. rewrite (hd_one _ G2) in *. exact X. }
  rewrite A3. cbv iota. eexists. split; [reflexivity|]. split; [exact G'|].
  cbn in HD. destruct HD as (D1 & D2 & D3). split; [cbn; auto|]. split; [|split; auto].
  destruct k as [|f0 [|f1 k2]]; cbn in HP; [tauto| |].
  - rewrite (hd_one _ Gh) in *. cbn. split; auto. split; auto.
    destruct HP as [(-> & -> & ->)|(-> & -> & ->)]; [left|right]; auto.
  - cbn. destruct HP as (P1 & P2 & P3). rewrite P1. split; auto. split; auto. split; auto.
    destruct P3 as [(-> & -> & ->)|(-> & P4)].
    + destruct (hd_two _ _ _ Gh) as [_ G2]. rewrite (hd_one _ G2) in *. cbn. auto.
    + split; auto. split; auto. intros E. specialize (P4 E). destruct k2 as [|f2 k3]; auto. destruct P4 as [-> | (-> & ->)]; auto.
Qed.

(** a subtree is rebuilt under its parent *)
Lemma geo_replace : forall st st' f k t t' h' L, at_ st (f :: k) t -> hd (f :: k) -> fits upper st0 e (f :: k) -> ids (plug (f :: k) t) = L ->
  keeps st0 st -> (forall j, j <> e -> ~ In j L0 -> st j = st0 j) -> (~ In e L -> st e = st0 e) ->
  (L = L0 /\ ~ In e L) \/ (forall j, In j L <-> j = e \/ In j L0) ->
  rep st' t' -> ids t' = ids t -> keeps st st' ->
  (forall j, ~ In j (ids t) -> st' j = st j) -> nrr t' -> nrrc (f :: k) h' -> (P -> exists n, bh t' n /\ bhc (f :: k) n) ->
  geo (set_kid st' (f_i f) (f_d f) (rid t')) (f :: k) t' h' L.
Proof.
  intros st st' f k t t' h' L Ga Gh Gf Gi Gk Gfr Ge GL R I K E N NC B.
  assert (Out : forall j, ~ In j L -> set_kid st' (f_i f) (f_d f) (rid t') j = st j).
  { intros j Hj. rewrite <- Gi in Hj. rewrite In_plug in Hj. rewrite set_kid_other; [apply E; tauto|]. intros ->. apply Hj. right. left. auto. }
  constructor; auto.
  - eapply at_replace; eauto; [rewrite I; auto|]. eapply at_HEAD; eauto.
  - rewrite <- Gi. apply plug_ids. auto.
  - eapply keeps_trans; [exact Gk|]. eapply keeps_trans; [exact K|]. apply keeps_set_kid.
  - intros j J1 J2. rewrite Out; auto. intros X. destruct GL as [[-> _]|GL]; auto. apply GL in X. tauto.
  - intros X. rewrite Out; auto.
Qed.

Lemma fits_app : forall k k', fits upper st0 e (k ++ k') <-> fits upper st0 e k /\ fits upper st0 e k'.
Proof. intros. unfold fits. apply Forall_app. Qed.

Lemma mid_single : forall st f0 f1 f2 k3 t L, geo st (f0 :: f1 :: f2 :: k3) t false L -> f_c f0 = true -> tred (f_s f1) = false -> f_d f0 = f_d f1 ->
  exists st1, jsw_single st (f_i f1) (negb (f_d f1)) = Ok (st1, f_i f0) /\
    geo (set_kid st1 (f_i f2) (f_d f2) (Some (f_i f0))) (mkf (f_d f1) false (f_i f0) (nd (negb (f_d f1)) true (f_s f1) (f_i f1) (f_s f0)) :: f2 :: k3) t (tred t) L.
Proof.
  intros st [d0 c0 p sp] [d1 c1 g u] f2 k3 t L G E0 Eu Ed. cbn [f_c f_s f_d f_i] in *. subst d0 c0.
  pose proof G as [Ga Gh Gf Gn Gc Gb Gi Gk Gfr Ge GL].
  destruct (hd_two _ _ _ Gh) as [Hp H1]. destruct (hd_two _ _ _ H1) as [Hg H2]. cbn [f_i] in Hp, Hg.
  cbn [nrrc f_c f_s f_i] in Gc. destruct Gc as (N1 & N2 & N3 & N4 & N5). destruct (N1 Hp eq_refl) as [_ Esp]. clear N1.
  assert (Ec : c1 = false) by (destruct c1; auto; destruct (N3 Hg eq_refl); discriminate). subst c1.
  inversion Gf as [|? ? Fp Gf1]; subst. inversion Gf1 as [|? ? Fg Gf2]; subst.
  set (T := nd d1 false (nd d1 true t p sp) g u) in *.
  assert (ET : T = nd (negb d1) false u g (nd (negb d1) true sp p t)) by (unfold T; rewrite !nd_negb; auto).
  assert (GT : at_ st (f2 :: k3) T) by exact Ga.
  destruct (at_sub _ _ _ GT) as [RT ND]. pose proof (at_HEAD _ _ _ GT H2) as NH. rewrite ET in RT, ND, NH.
  destruct (single_ok _ _ _ _ _ _ _ _ _ RT ND NH) as (st1 & J & R1 & K1 & O1).
  exists st1. split; [exact J|].
  set (T' := nd (negb d1) false (nd (negb d1) true u g sp) p t) in *.
  assert (X : geo (set_kid st1 (f_i f2) (f_d f2) (rid T')) (f2 :: k3) T' false (ids (plug (f2 :: k3) T))).
  { eapply geo_replace; [exact GT|exact H2|exact Gf2|reflexivity|exact Gk|exact Gfr|exact Ge|exact GL|exact R1| | exact K1 | | | |].
    - unfold T'. rewrite ET. apply ids_single.
    - intros j Hj. apply O1; intros ->; apply Hj; unfold T; rewrite !In_nd; auto.
    - unfold T'. rewrite !nrr_nd. repeat split; auto; discriminate.
    - exact N5.
    - intros q. destruct (Gb q) as (n & B1 & B2). cbn in B2. destruct (B2 Hp) as [B3 B4]. destruct (B4 Hg) as [B5 B6]. exists (S n). split; auto.
      unfold T'. rewrite bh_nd. exists n. rewrite bh_nd. auto. }
  unfold T' in X at 1. rewrite rid_nd in X. unfold T' in X. rewrite nd_negb in X.
  clear -X Hp Fp Gn. destruct X as [Ga Gh Gf Gn' Gc Gb Gi Gk Gfr Ge GL]. apply nrr_nd in Gn' as (A1 & A2 & A3). constructor; auto.
  - constructor; auto.
  - constructor; auto.
  - cbn. split; [discriminate|]. split; auto.
  - intros q. destruct (Gb q) as (n & B1 & B2). rewrite bh_nd in B1. destruct B1 as (m & -> & B3 & B4). exists m. cbn. auto.
Qed.

Lemma mid_double : forall st f0 f1 f2 k3 a x b L, let d := negb (f_d f1) in
  geo st (f0 :: f1 :: f2 :: k3) (nd d true b x a) false L -> f_c f0 = true -> tred (f_s f1) = false -> f_d f0 = d -> tred a = false -> tred b = false ->
  exists st1, jsw_double st (f_i f1) d = Ok (st1, x) /\
    geo (set_kid st1 (f_i f2) (f_d f2) (Some x)) (f2 :: k3) (nd d false (nd d true (f_s f1) (f_i f1) b) x (nd d true a (f_i f0) (f_s f0))) false L.
Proof.
  intros st [d0 c0 p sp] [d1 c1 g u] f2 k3 a x b L d G E0 Eu Ed Ea Eb. cbn [f_c f_s f_d f_i] in *. subst d0 c0.
  pose proof G as [Ga Gh Gf Gn Gc Gb Gi Gk Gfr Ge GL].
  destruct (hd_two _ _ _ Gh) as [Hp H1]. destruct (hd_two _ _ _ H1) as [Hg H2]. cbn [f_i] in Hp, Hg.
  cbn [nrrc f_c f_s f_i] in Gc. destruct Gc as (N1 & N2 & N3 & N4 & N5). destruct (N1 Hp eq_refl) as [_ Esp]. clear N1.
  assert (Ec : c1 = false) by (destruct c1; auto; destruct (N3 Hg eq_refl); discriminate). subst c1.
  inversion Gf as [|? ? Fp Gf1]; subst. inversion Gf1 as [|? ? Fg Gf2]; subst.
  set (t := nd d true b x a) in *. set (T := nd d1 false (nd d true t p sp) g u) in *.
  assert (ET : T = nd d false u g (nd d true t p sp)) by (unfold T, d; rewrite (nd_negb d1 false); auto).
  assert (GT : at_ st (f2 :: k3) T) by exact Ga.
  destruct (at_sub _ _ _ GT) as [RT ND]. pose proof (at_HEAD _ _ _ GT H2) as NH. rewrite ET in RT, ND, NH.
  destruct (double_ok _ _ _ _ _ _ _ _ _ _ _ _ RT ND NH) as (st1 & J & R1 & K1 & O1).
  exists st1. split; [exact J|]. apply nrr_nd in Gn as (_ & Na & Nb).
  set (T' := nd d false (nd d true u g b) x (nd d true a p sp)) in *.
  change (plug _ t) with (plug (f2 :: k3) T).
  replace (Some x) with (rid T') by (unfold T'; apply rid_nd).
  eapply geo_replace; [exact GT|exact H2|exact Gf2|reflexivity|exact Gk|exact Gfr|exact Ge|exact GL|exact R1| | exact K1 | | | |].
  - rewrite ET; apply ids_double.
  - intros j Hj. apply O1. fold t. rewrite <- ET. auto.
  - unfold T'. rewrite !nrr_nd. repeat split; auto; discriminate.
  - exact N5.
  - intros q. destruct (Gb q) as (n & B1 & B2). cbn in B2. destruct (B2 Hp) as [B3 B4]. destruct (B4 Hg) as [B5 B6]. exists (S n). split; auto.
    unfold T'. rewrite bh_nd. exists n. rewrite !bh_nd. unfold t in B1. rewrite bh_nd in B1. tauto.
Qed.

Lemma DC_red : forall n k a x b, settled a -> settled b -> (tsize (Nd true a x b) < S n)%nat -> DC n k (Nd true a x b).
Proof.
  intros n k a x b Sa Sb Hs. assert (Ta : tred a = false) by (destruct a; cbn in *; tauto). assert (Tb : tred b = false) by (destruct b; cbn in *; tauto).
  assert (Sd : settled (down (Nd true a x b))) by (cbn; destruct (dirof x); auto).
  assert (Aw : tred (away (Nd true a x b)) = false) by (cbn; destruct (dirof x); auto).
  rewrite tsize_Nd in Hs. unfold DC. cbv zeta. split; [|split].
  - unfold C1. cbn [f_s]. intros _ _ X. rewrite Aw in X. discriminate.
  - destruct k; cbn [C2]; auto.
  - left. lia.
Qed.
Lemma is_red_rep : forall st t x, rep st t -> rid t = Some x -> is_red st (Some x) = tred t.
Proof. intros st t x R E. rewrite <- E. apply rep_rid. auto. Qed.
Lemma tsize_nd : forall d c x i y, tsize (nd d c x i y) = S (tsize x + tsize y).
Proof. intros. unfold tsize. destruct d; cbn; rewrite app_length; cbn; lia. Qed.
Lemma settled_size : forall t, settled t -> (1 <= tsize t)%nat.
Proof. intros [|c l i r]; cbn; [tauto|]. intros _. unfold tsize. cbn. rewrite app_length. cbn. lia. Qed.

Lemma fix_ok : forall n st k a x b v t L, geo st k (Nd true a x b) false L -> PI v k t -> tred a = false -> tred b = false ->
  (match k with f0 :: f1 :: _ => f_c f0 = true -> f_i f1 <> HEAD /\ tred (f_s f1) = false | _ => True end) ->
  exists st2 v2 k2 t2, ins_fix st x v = Ok (st2, v2) /\ geo st2 k2 t2 (tred t2) L /\ rid t2 = Some x /\ PP v2 k2 (tred t2) /\
    (settled a -> settled b -> (tsize (Nd true a x b) < S n)%nat -> DC n k2 t2).
Proof.
  intros n st k a x b v t L G HP Ea Eb HC. set (t1 := Nd true a x b) in *.
  pose proof (g_at _ _ _ _ _ G) as Ga. pose proof (g_hd _ _ _ _ _ G) as Gh. destruct (at_sub _ _ _ Ga) as [Rt _].
  assert (Rx : is_red st (Some x) = true) by (rewrite (is_red_rep _ _ _ Rt eq_refl); auto).
  unfold ins_fix. rewrite Rx. cbn [andb].
  assert (Stay : is_red st (i_p v) = false -> nrrc k true -> exists st2 v2 k2 t2, Ok (st, v) = Ok (st2, v2) /\ geo st2 k2 t2 (tred t2) L /\ rid t2 = Some x /\ PP v2 k2 (tred t2) /\
     (settled a -> settled b -> (tsize t1 < S n)%nat -> DC n k2 t2)).
  { intros _ NC. exists st, v, k, t1. split; auto. split; [destruct G; constructor; auto|]. split; auto. split; [eapply PI_PP; eauto|]. apply DC_red. }
  destruct k as [|f0 [|f1 k2]]; [destruct HP| |].
  - pose proof HP as (Ep & _). rewrite Ep in *. cbn [is_red]. apply Stay; auto. rewrite (hd_one _ Gh). cbn. split; [intros X; destruct (X eq_refl)|auto].
  - assert (Ep : i_p v = Some (f_i f0)) by (destruct k2; apply HP).
    destruct (hd_two _ _ _ Gh) as [Hp H1].
    assert (Rp : is_red st (i_p v) = f_c f0) by (rewrite Ep; cbn; apply (at_kid _ _ _ _ Ga)).
    rewrite Rp in *. destruct (f_c f0) eqn:Ec.
    2:{ apply Stay; auto. pose proof (g_nrrc _ _ _ _ _ G) as NC. cbn in NC |- *. rewrite Ec in *. split; [discriminate|tauto]. }
    destruct (HC eq_refl) as [Hg Eu]. destruct k2 as [|f2 k3]; [rewrite (hd_one _ H1) in Hg; destruct (Hg eq_refl)|].
    destruct (hd_two _ _ _ H1) as [_ H2]. clear Stay HC.
    destruct HP as (_ & Edir & Egp & Eggp & Elast & Egggp). rewrite Ec in Elast, Egggp. specialize (Elast eq_refl). specialize (Egggp eq_refl).
    rewrite Ep, Eggp, Egp. cbn [deref bind].
    assert (D2 := dir_ok st f2 k3 (fill f1 (fill f0 t1)) (f_i f1) Ga (rid_nd _ _ _ _ _)). rewrite D2. cbn [bind]. rewrite Elast.
    destruct (at_kid _ _ _ _ Ga) as (K1 & K2 & _). pose proof (at_other _ _ _ _ _ Ga eq_refl) as No.
    destruct (bool_dec (f_d f0) (f_d f1)) as [Ed|Ed].
    + assert (Ex : same (Some x) (kid st (f_i f0) (f_d f1)) = true) by (rewrite <- Ed, K1; apply same_refl). rewrite Ex.
      destruct (mid_single _ _ _ _ _ _ _ G Ec Eu Ed) as (st1 & J & G1). rewrite J. cbn [bind].
      eexists _, _, _, t1. split; [reflexivity|]. split; [exact G1|]. split; auto. split; [|apply DC_red].
      cbn. split; auto. split; [intros _; congruence|]. right. split; auto. intros _. destruct k3; auto.
    + assert (Ed' : f_d f0 = negb (f_d f1)) by (destruct (f_d f0), (f_d f1); auto; tauto).
      assert (Ex : same (Some x) (kid st (f_i f0) (f_d f1)) = false).
      { replace (f_d f1) with (negb (f_d f0)) by (rewrite Ed', negb_involutive; auto). rewrite K2.
        destruct (same (Some x) (rid (f_s f0))) eqn:F; auto. apply same_iff in F. symmetry in F. tauto. }
      rewrite Ex. replace (same (Some x) (kid st (f_i f0) (negb (f_d f1)))) with true by (rewrite <- Ed', K1; symmetry; apply same_refl).
      set (d := negb (f_d f1)) in *.
      assert (Et : t1 = nd d true (if d then b else a) x (if d then a else b)) by apply Nd_nd.
      set (b' := if d then b else a) in *. set (a' := if d then a else b) in *. rewrite Et in G.
      assert (Ea' : tred a' = false) by (unfold a'; destruct d; auto). assert (Eb' : tred b' = false) by (unfold b'; destruct d; auto).
      destruct (mid_double _ _ _ _ _ _ _ _ _ G Ec Eu Ed' Ea' Eb') as (st1 & J & G1). fold d in J, G1. rewrite J. cbn [bind].
      set (t2 := nd d false (nd d true (f_s f1) (f_i f1) b') x (nd d true a' (f_i f0) (f_s f0))) in *.
      eexists _, _, (f2 :: k3), t2. split; [reflexivity|].
      assert (Tt : tred t2 = false) by apply tred_nd. split; [rewrite Tt; exact G1|]. split; [apply rid_nd|]. split.
      * rewrite Tt. destruct k3 as [|f3 k4].
        { rewrite (hd_one _ H2) in *. cbn. auto. }
        destruct (hd_two _ _ _ H2) as [Hn2 _]. cbn. replace (f_i f2 =? HEAD) with false by lia.
        split; auto. split; [discriminate|]. right. split; auto. discriminate.
      * intros Sa Sb Hs.
        assert (Sa' : settled a') by (unfold a'; destruct d; auto). assert (Sb' : settled b') by (unfold b'; destruct d; auto).
        pose proof (settled_size _ Sa'). pose proof (settled_size _ Sb').
        assert (Hs' : (tsize a' + tsize b' < n)%nat) by (rewrite Et, tsize_nd in Hs; lia).
        pose proof (g_fits _ _ _ _ _ G) as F. inversion F as [|? ? [_ F0] F']; subst. inversion F' as [|? ? [_ F1] _]; subst.
        specialize (F0 Hp). specialize (F1 Hg). fold (dirof (f_i f0)) in F0. fold (dirof (f_i f1)) in F1.
        set (p2 := nd d true a' (f_i f0) (f_s f0)) in *. set (g2 := nd d true (f_s f1) (f_i f1) b') in *.
        assert (Dp : down p2 = a') by (unfold p2, nd; destruct d; cbn; rewrite <- F0, Ed'; auto).
        assert (Dg : down g2 = b') by (unfold g2, nd; subst d; destruct (f_d f1); cbn; rewrite <- F1; auto).
        assert (Tp : tred p2 = true) by apply tred_nd. assert (Tg : tred g2 = true) by apply tred_nd.
        assert (Dn : down t2 = p2 \/ down t2 = g2) by (unfold t2, nd; destruct d; cbn; destruct (dirof x); auto).
        assert (Aw : exists c l y r, t2 = Nd c l y r /\ c = false) by (unfold t2, nd; destruct d; eauto 10).
        destruct Aw as (c & l & y & r & E2 & ->). rewrite E2 in *. unfold DC. cbv zeta. split; [|split].
        { unfold C1. intros _ _ _. destruct Dn as [-> | ->]; rewrite ?Dp, ?Dg; auto. }
        { unfold C2. cbn [f_c]. discriminate. }
        { right. cbn [f_c]. destruct Dn as [-> | ->]; rewrite ?Dp, ?Dg, ?Tp, ?Tg; repeat split; auto; lia. }
Qed.

Lemma DC_stay : forall n v k c l x r, hd k -> PI v k (Nd c l x r) -> C1 k (Nd c l x r) -> M (S n) k (Nd c l x r) -> tred l && tred r = false ->
  DC n k (Nd c l x r).
Proof.
  intros n v k c l x r Hk HP H1 HM Hc. unfold DC. cbv zeta. set (t := Nd c l x r) in *. split; [|split].
  - unfold C1. cbn [f_s]. intros _ A B. cbn in A, B. destruct (dirof x); rewrite A, B in Hc; discriminate.
  - destruct k as [|f0 k]; cbn [C2]; auto. cbn [f_c]. intros -> Hs. cbn in H1. destruct (Z.eq_dec (f_i f0) HEAD) as [E|E].
    + destruct k; [cbn in HP; destruct HP as (_ & _ & _ & _ & X); discriminate|]. destruct (hd_two _ _ _ Hk). tauto.
    + apply H1; auto. tauto.
  - left. destruct HM as [HM|(_ & _ & HM)]; [|lia]. unfold t in HM. rewrite tsize_Nd in HM. fold t in HM. lia.
Qed.

Lemma flip_ok : forall st k cl ll li lr x cr rl ri rr c, let t := Nd c (Nd cl ll li lr) x (Nd cr rl ri rr) in at_ st k t ->
  at_ (set_red (set_red (set_red st x true) li false) ri false) k (Nd true (Nd false ll li lr) x (Nd false rl ri rr)).
Proof.
  intros st k cl ll li lr x cr rl ri rr c t A. destruct (at_sub _ _ _ A) as [R ND].
  apply (rep_recolor _ x true) in R. apply (rep_recolor _ li false) in R. apply (rep_recolor _ ri false) in R.
  unfold t in R, ND. pose proof (proj1 (NoDup_nd false c _ x _) ND) as (n1 & n2 & n3 & n4 & n5).
  pose proof (proj1 (NoDup_nd false cl _ li _) n3) as (m1 & m2 & _). pose proof (proj1 (NoDup_nd false cr _ ri _) n4) as (q1 & q2 & _).
  pose proof (fun j => n5 j) as n6. cbn [ids] in n1, n2, n5, n6. setoid_rewrite in_app_iff in n5. rewrite in_app_iff in n1, n2. cbn [In] in *.
  assert (E : recolor ri false (recolor li false (recolor x true (Nd c (Nd cl ll li lr) x (Nd cr rl ri rr)))) = Nd true (Nd false ll li lr) x (Nd false rl ri rr)).
  { cbn [recolor]. rewrite !Z.eqb_refl.
    assert (li <> x) by intuition. assert (ri <> x) by intuition. assert (ri <> li) by (intros ->; apply (n5 li); cbn; auto; rewrite in_app_iff; cbn; auto).
    replace (x =? li) with false by lia. replace (x =? ri) with false by lia. replace (li =? ri) with false by lia.
    replace (ri =? li) with false by lia. replace (li =? x) with false by lia. replace (ri =? x) with false by lia.
    assert (~ In li (ids rl) /\ ~ In li (ids rr)) as [w1 w2] by (split; intros X; apply (n5 li); rewrite ?in_app_iff; cbn; auto).
    assert (~ In ri (ids ll) /\ ~ In ri (ids lr)) as [w3 w4] by (split; intros X; apply (n5 ri); rewrite ?in_app_iff; cbn; auto).
    assert (V : forall s, ~ In x (ids s) -> ~ In li (ids s) -> ~ In ri (ids s) -> recolor ri false (recolor li false (recolor x true s)) = s).
    { intros u v1 v2 v3. rewrite (recolor_out x), (recolor_out li), (recolor_out ri); auto. }
    rewrite !V; auto. }
  rewrite E in R. eapply at_inner; [exact A|exact R| |auto|].
  - unfold t. cbn. auto.
  - intros j Hj. unfold t in Hj. cbn in Hj. rewrite !in_app_iff in Hj. cbn in Hj. rewrite !in_app_iff in Hj. cbn in Hj. rewrite !set_red_other; auto; intros ->; tauto.
Qed.

Hypothesis He : e <> HEAD.
Hypothesis HeL : ~ In e L0.
Hypothesis HL : StronglySorted (lo st0) L0.
Hypothesis Hap : forall j, In j L0 -> apart upper st0 e j.
Hypothesis Hre : rep st0 (Nd true Lf e Lf).

Definition done (st' : store) : Prop := exists t', at_ st' [Hf] t' /\ nrr t' /\ (P -> exists n, bh t' n) /\ keeps st0 st' /\
  (forall j, j <> e -> ~ In j L0 -> st' j = st0 j) /\
  exists A B, L0 = A ++ B /\ HEAD :: ids t' = A ++ e :: B /\ Forall (fun j => lo st0 j e) A /\ Forall (fun j => lo st0 e j) B.

Lemma loop_ok : forall n st v k t, geo st k t (tred t) L0 -> LI n v k t -> exists st', ins_loop upper n st e v = Ok st' /\ done st'.
Proof.
  induction n as [|n IH]; intros st v k t G (En & HP & H1 & H2 & HM).
  { destruct HM as [HM|(_ & _ & HM)]; lia. }
  pose proof G as [Ga Gh Gf Gn Gc Gb Gi Gk Gfr Ge GL]. cbn [ins_loop]. destruct t as [|c l x r].
  - (* the new entry goes here *)
    destruct k as [|f0 [|f1 k2]]; [destruct HP|cbn in HP; tauto|].
    assert (Ep : i_p v = Some (f_i f0) /\ i_dir v = f_d f0) by (destruct k2; cbn in HP; tauto). destruct Ep as [Ep Ed].
    set (k := f0 :: f1 :: k2) in *.
    assert (Ecut : L0 = pre k ++ post k) by (rewrite <- Gi, ids_plug; auto).
    assert (Ne : ~ In e (cids k)) by (intros X; apply HeL; rewrite <- Gi, In_plug; auto).
    unfold ins_node. rewrite En, Ep, Ed. cbn [rid deref bind].
    assert (Re : rep st (Nd true Lf e Lf)) by (eapply rep_ext; [exact Hre|]; intros j [<-|[]]; auto).
    pose proof (at_insert _ _ _ _ Ga Re Ne He) as Ga1.
    assert (G1 : geo (set_kid st (f_i f0) (f_d f0) (Some e)) k (Nd true Lf e Lf) false (pre k ++ e :: post k)).
    { constructor; auto.
      - cbn. auto.
      - intros q. destruct (Gb q) as (m & B1 & B2). exists m. cbn in B1 |- *. auto.
      - rewrite ids_plug. auto.
      - eapply keeps_trans; [exact Gk|apply keeps_set_kid].
      - intros j J1 J2. rewrite set_kid_other; auto. intros ->. apply J2. rewrite <- Gi, In_plug. right. left. auto.
      - intros X. exfalso. apply X. apply in_or_app. right. left. auto.
      - right. intros j. rewrite Ecut, !in_app_iff. cbn. intuition. }
    destruct (fix_ok n _ _ _ _ _ _ _ _ G1 HP) as (st2 & v2 & k3 & t2 & F & G2 & _); auto.
    { unfold k. cbn [C2] in H2. intros E. split; [intros X; apply (H2 E); auto|]. destruct (tred (f_s f1)) eqn:X; auto. destruct (H2 E); auto. }
    rewrite F. cbn [bind]. rewrite Z.eqb_refl. exists st2. split; auto.
    destruct G2 as [Ga2 Gh2 Gf2 Gn2 Gc2 Gb2 Gi2 Gk2 Gfr2 Ge2 GL2].
    destruct (hd_plug _ _ P Gh2 Gn2 Gc2 Gb2) as (t' & E' & N' & B').
    exists t'. split; [unfold at_ in *; change (plug [Hf] t') with (Nd true Lf HEAD t'); rewrite <- E'; auto|]. split; auto. split; auto. split; auto. split; auto.
    exists (pre k), (post k). split; auto. split; [change (HEAD :: ids t') with (ids (Nd true Lf HEAD t')); rewrite <- E'; auto|].
    apply (fits_cut upper k st0 e Lf); auto. { rewrite Gi. auto. } intros j Hj. apply Hap. rewrite <- Gi, In_plug. auto.
  - assert (Hx : In x L0) by (rewrite <- Gi, In_plug; left; cbn; apply in_or_app; right; left; auto).
    assert (Nx : x <> e) by (intros ->; tauto).
    assert (NH : x <> HEAD) by (intros ->; apply (at_HEAD _ _ _ Ga Gh); cbn; apply in_or_app; right; left; auto).
    assert (Nxe : (x =? e) = false) by lia.
    destruct (at_sub _ _ _ Ga) as [Rt _]. pose proof Rt as (R1 & R2 & R3 & R4 & R5).
    destruct (tred l && tred r) eqn:Fl.
    + (* colour flip *)
      destruct l as [|cl ll li lr]; [discriminate|]. destruct r as [|cr rl ri rr]; [cbn in Fl; rewrite andb_false_r in Fl; discriminate Fl|]. cbn in Fl. apply andb_prop in Fl as [-> ->].
      assert (c = false) by (destruct c; auto; destruct Gn as [X _]; destruct (X eq_refl) as [Y _]; discriminate Y). clear R1. subst c.
      cbn [rid] in En, R2, R3.
      assert (IN : ins_node st e v = Ok (set_red (set_red (set_red st x true) li false) ri false, x)).
      { unfold ins_node. rewrite En. cbn. rewrite R2, R3. cbn in R4, R5. destruct R4 as (-> & _), R5 as (-> & _). auto. }
      rewrite IN. cbn [bind]. pose proof (flip_ok _ _ _ _ _ _ _ _ _ _ _ _ Ga) as Ga1.
      set (st1 := set_red (set_red (set_red st x true) li false) ri false) in *.
      assert (Hli : In li L0 /\ In ri L0). { rewrite <- Gi, !In_plug. cbn. rewrite !in_app_iff. cbn. rewrite !in_app_iff. cbn. auto 10. } destruct Hli as [Hli Hri].
      assert (Out : forall j, ~ In j L0 -> st1 j = st j) by (intros j Hj; unfold st1; rewrite !set_red_other; auto; intros ->; tauto).
      cbn in Gn. destruct Gn as (_ & (N1 & N2 & N3) & (N4 & N5 & N6)). destruct (N1 eq_refl) as [N7 N8]. destruct (N4 eq_refl) as [N9 N10].
      assert (G1 : geo st1 k (Nd true (Nd false ll li lr) x (Nd false rl ri rr)) false L0).
      { constructor; auto.
        - cbn. repeat split; auto; discriminate.
        - intros q. destruct (Gb q) as (m & B1 & B2). exists m. split; auto. cbn in B1 |- *. destruct B1 as (m' & -> & B3 & B4). split; exists m'; tauto.
        - rewrite <- Gi. apply plug_ids. auto.
        - eapply keeps_trans; [exact Gk|]. repeat (eapply keeps_trans; [|apply keeps_set_red]). apply keeps_refl.
        - intros j J1 J2. rewrite Out; auto.
        - intros X. rewrite Out; auto. }
      destruct (fix_ok n _ _ _ _ _ _ _ _ G1 HP) as (st2 & v2 & k2 & t2 & F & G2 & E2 & P2 & D2); auto.
      { destruct k as [|f0 [|f1 k2]]; auto. cbn [C2] in H2. intros E.
        assert (Ns : ~ settled (Nd false (Nd true ll li lr) x (Nd true rl ri rr))) by (cbn; intros (_ & X & _); discriminate).
        split; [intros X; apply Ns, H2; auto|]. destruct (tred (f_s f1)) eqn:X; auto. destruct Ns. apply H2; auto. }
      rewrite F. cbn [bind]. rewrite Nxe. destruct t2 as [|c2 l2 x2 r2]; [discriminate|]. injection E2 as ->.
      destruct (down_ok n _ _ _ _ _ _ _ _ G2 P2) as (v3 & F3 & G3 & L3); auto.
      { apply D2; cbn; auto. destruct HM as [HM|(X & _)]; [|discriminate]. unfold tsize in *. cbn in *. rewrite !app_length in *. cbn in *. rewrite !app_length in *. cbn in *. lia. }
      rewrite F3. cbn [bind]. eapply IH; eauto.
    + (* nothing to flip *)
      assert (IN : ins_node st e v = Ok (st, x)).
      { unfold ins_node. rewrite En. cbn [rid kid]. rewrite R2, R3. pose proof (rep_rid _ _ R4) as Q1. pose proof (rep_rid _ _ R5) as Q2.
        destruct l as [|cl ll li lr]; [auto|]. destruct r as [|cr rl ri rr]; [auto|]. cbn in Q1, Q2, Fl |- *. rewrite Q1, Q2, Fl. auto. }
      rewrite IN. cbn [bind].
      assert (IF : ins_fix st x v = Ok (st, v)).
      { unfold ins_fix. rewrite (is_red_rep _ _ _ Rt eq_refl). cbn [tred]. destruct c; auto. cbn [andb].
        destruct k as [|f0 [|f1 k2]]; [destruct HP|cbn in HP; destruct HP as (_ & _ & _ & _ & X); discriminate|].
        assert (Ep : i_p v = Some (f_i f0)) by (destruct k2; cbn in HP; tauto). rewrite Ep. cbn [is_red].
        destruct (at_kid _ _ _ _ Ga) as (_ & _ & ->). destruct (hd_two _ _ _ Gh) as [Hp _]. cbn in Gc. destruct Gc as [X _]. destruct (f_c f0); auto. destruct (X Hp eq_refl). discriminate. }
      rewrite IF. cbn [bind]. rewrite Nxe.
      destruct (down_ok n _ _ _ _ _ _ _ _ G (PI_PP _ _ _ _ HP)) as (v3 & F3 & G3 & L3); auto.
      { eapply DC_stay; eauto. }
      rewrite F3. cbn [bind]. eapply IH; eauto.
Qed.
End Insert.

(** ** insert and add_child *)
(** the children of [self] are the entries of [t] *)
Record holds (st : store) (self : Z) (t : tree) : Prop := {
  h_child : d_child (st self) = rid t; h_rep : rep st t; h_nd : NoDup (ids t);
  h_self : ~ In self (ids t); h_HEAD : ~ In HEAD (ids t); h_pos : self <> HEAD }.

(** in search order *)
Definition sorted (upper : list Z -> list Z) (st : store) (l : list Z) : Prop := StronglySorted (fun i j => ent_lt upper st i j = true) l.

Lemma sorted_head : forall upper st l, ~ In HEAD l -> sorted upper st l -> StronglySorted (lo upper st) (HEAD :: l).
Proof.
  intros upper st l H S. constructor.
  - eapply sorted_ext; [|exact S]. intros a b Ha Hb E. split; [intros ->; tauto|auto].
  - apply Forall_forall. intros j Hj. split; auto. intros ->. tauto.
Qed.
Lemma sorted_names : forall upper st st' l, (forall j, In j l -> d_name (st' j) = d_name (st j)) -> sorted upper st l -> sorted upper st' l.
Proof.
  intros upper st st' l H S. eapply sorted_ext; [|exact S]. intros a b Ha Hb E. unfold ent_lt in *. cbn in E |- *. rewrite (H a Ha), (H b Hb). auto.
Qed.

Lemma ids_length : forall t, zlen (ids t) = Z.of_nat (tsize t).
Proof. intros. unfold zlen, tsize. auto. Qed.

Lemma insert_ok : forall upper st self e maxn t, holds st self t -> t <> Lf -> tred t = false -> nrr t -> sorted upper st (ids t) ->
  e <> HEAD -> e <> self -> ~ In e (ids t) -> d_left (st e) = None -> d_right (st e) = None ->
  (forall j, In j (ids t) -> name_eq upper (d_name (st e)) (d_name (st j)) = false) -> zlen (ids t) < maxn ->
  exists st' t', insert upper st self e maxn = Ok st' /\ holds st' self t' /\ Permutation (ids t') (e :: ids t) /\ sorted upper st' (ids t') /\
    tred t' = false /\ nrr t' /\ (forall n, bh t n -> exists m, bh t' m) /\
    (forall j, j <> HEAD -> d_name (st' j) = d_name (st j) /\ d_kind (st' j) = d_kind (st j)) /\
    (forall j, j <> HEAD -> j <> self -> d_child (st' j) = d_child (st j)) /\
    (forall j, j <> HEAD -> j <> self -> j <> e -> ~ In j (ids t) -> st' j = st j) /\ st' self = set_child st self (rid t') self.
Proof.
  intros upper st self e maxn t [Hc Hr Hn Hs HH Hp] Nl Tb Nr So He Hes Het El Er Ha Hm.
  unfold insert. set (st1 := set_red st e true). destruct t as [|c l x r] eqn:Et; [tauto|]. rewrite <- Et in *. clear Nl.
  assert (E1 : d_child (st1 self) = Some x) by (unfold st1; rewrite set_red_other, Hc, Et; auto).
  rewrite E1. set (st2 := supd (set_child st1 self None) HEAD (new_head (Some x))).
  assert (S2 : forall j, j <> HEAD -> j <> self -> j <> e -> st2 j = st j).
  { intros j A B C. unfold st2, st1. rewrite supd_other, set_child_other, set_red_other; auto. }
  assert (Nm : forall j, j <> HEAD -> d_name (st2 j) = d_name (st j) /\ d_kind (st2 j) = d_kind (st j)).
  { intros j A. unfold st2. rewrite supd_other by auto. unfold set_child, supd. destruct (j =? self) eqn:F; cbn.
    - assert (j = self) by lia. subst j. unfold st1. rewrite set_red_other; auto.
    - unfold st1, set_red, supd. destruct (j =? e) eqn:F2; auto. assert (j = e) by lia. subst; auto. }
  assert (Ne2 : st2 e = st1 e) by (unfold st2; rewrite supd_other, set_child_other; auto).
  assert (Rt : rep st2 t).
  { eapply rep_ext; [exact Hr|]. intros j Hj. apply S2; intros ->; tauto. }
  set (L0 := HEAD :: ids t). set (P := exists n, bh t n).
  set (v0 := mkiv None (Some HEAD) None None (Some x) false false).
  assert (Et1 : rid t = Some x) by (rewrite Et; auto).
  assert (G : geo upper st2 e L0 P st2 [Hf] t (tred t) L0).
  { constructor.
    - split.
      + change (plug [Hf] t) with (Nd true Lf HEAD t). cbn [rep]. unfold st2 at 1 2 3. rewrite supd_same. cbn. rewrite <- Et1. auto.
      + change (plug [Hf] t) with (Nd true Lf HEAD t). cbn. constructor; auto.
    - constructor.
    - constructor; [|constructor]. cbn. split; auto. intros X. destruct (X eq_refl).
    - auto.
    - cbn. split; auto; intros X; destruct (X eq_refl).
    - intros (n & B). exists n. split; auto. cbn. intros X. destruct (X eq_refl).
    - auto.
    - apply keeps_refl.
    - auto.
    - auto.
    - left. split; auto. cbn. intros [X|X]; auto. }
  assert (LI0 : LI upper st2 e (Z.to_nat maxn) v0 [Hf] t).
  { split; [cbn; congruence|]. split; [cbn; repeat split; auto; rewrite Et; discriminate|]. split; [cbn; intros X; destruct (X eq_refl)|]. split; [cbn; auto|].
    left. rewrite ids_length in Hm. lia. }
  destruct (loop_ok upper st2 e L0 P) with (n := Z.to_nat maxn) (st := st2) (v := v0) (k := [Hf]) (t := t) as (st3 & F & t' & A3 & N3 & B3 & K3 & Fr3 & A & B & EA & EB & LA & LB); auto.
  { cbn. intros [X|X]; auto. }
  { apply sorted_head; auto. eapply sorted_names; [|exact So]. intros j Hj. apply Nm. intros ->. tauto. }
  { intros j [<-|Hj]; [left; auto|]. right. unfold ent_lt. destruct (Nm e He) as [-> _]. assert (j <> HEAD) by (intros ->; tauto). destruct (Nm j H) as [-> _].
    destruct (name_lt upper (d_name (st e)) (d_name (st j))) eqn:Q; auto. right. apply name_total; auto. }
  { cbn. rewrite Ne2. unfold st1, set_red. rewrite supd_same. cbn. auto. }
  rewrite F. cbn [bind].
  assert (A3' := A3). destruct A3' as [R3 D3]. change (plug [Hf] t') with (Nd true Lf HEAD t') in R3, D3. cbn [rep ids] in R3, D3. destruct R3 as (_ & _ & R3 & _ & R3').
  cbn in D3. inversion D3 as [|? ? D4 D5]; subst x0 l0.
  assert (SS : StronglySorted (lo upper st2) (HEAD :: ids t')).
  { rewrite EB. assert (S0 : StronglySorted (lo upper st2) (A ++ B)).
    { rewrite <- EA. apply sorted_head; auto. eapply sorted_names; [|exact So]. intros j Hj. apply Nm. intros ->. tauto. }
    apply sorted_app in S0 as (S1 & S3 & S4). rewrite Forall_forall in LA, LB. apply sorted_app. split; auto. split.
    - constructor; auto. apply Forall_forall. auto.
    - intros a b Ha' [<-|Hb']; auto. }
  assert (Pm : Permutation (ids t') (e :: ids t)).
  { apply Permutation_cons_inv with (a := HEAD). rewrite EB. rewrite <- Permutation_middle. rewrite <- EA. apply perm_swap. }
  rewrite R3. set (st4 := set_child st3 self (rid t')).
  assert (Ne : exists y, rid t' = Some y) by (destruct t'; [cbn in Pm; apply Permutation_nil in Pm; discriminate|cbn; eauto]). destruct Ne as (y & Ey).
  assert (Y : In y (ids t')) by (apply rid_In; auto).
  assert (Sf : ~ In self (ids t')) by (intros X; apply (Permutation_in _ Pm) in X; destruct X as [X|X]; auto).
  assert (C4 : d_child (st4 self) = Some y) by (unfold st4, set_child; rewrite supd_same; auto). rewrite C4. cbn [deref bind].
  exists (set_red st4 y false), (recolor y false t'). split; auto.
  assert (R4 : rep st4 t') by (eapply rep_ext; [exact R3'|]; intros j Hj; unfold st4; rewrite set_child_other; auto; intros ->; tauto).
  assert (St5 : forall j, j <> HEAD -> d_name (set_red st4 y false j) = d_name (st j) /\ d_kind (set_red st4 y false j) = d_kind (st j)).
  { intros j Hj. destruct (keeps_set_red st4 y false j) as (-> & -> & _). unfold st4, set_child, supd. destruct (j =? self) eqn:Q; cbn.
    - assert (j = self) by lia. subst j. destruct (K3 self) as (-> & -> & _). apply Nm. auto.
    - destruct (K3 j) as (-> & -> & _). apply Nm. auto. }
  assert (Ysf : y <> self) by (intros ->; tauto).
  assert (Col : tred (recolor y false t') = false /\ nrr (recolor y false t') /\ (forall n, bh t n -> exists m, bh (recolor y false t') m)).
  { destruct t' as [|c' l' y' r']; [discriminate|]. injection Ey as ->. pose proof (proj1 (NoDup_nd false c' l' y r') D5) as (m1 & m2 & _).
    cbn. rewrite Z.eqb_refl, !recolor_out by auto. cbn in N3. destruct N3 as (_ & N4 & N5). split; auto. split; [repeat split; auto; discriminate|].
    intros n Bn. destruct B3 as (m & Bm); [exists n; auto|]. cbn in Bm. destruct c'; eauto. }
  split; [|split; [|split; [|split; [|split; [|split; [|split; [|split; [|split]]]]]]]].
  - constructor; rewrite ?ids_recolor, ?rid_recolor; auto.
    + rewrite set_red_other, C4; auto.
    + apply rep_recolor. auto.
  - rewrite ids_recolor. auto.
  - rewrite ids_recolor. inversion SS as [|? ? SS1 SS2]; subst. eapply sorted_ext; [|exact SS1].
    intros a b Ha' Hb' [X1 [X2|X2]]; [subst; tauto|]. unfold ent_lt in *. assert (a <> HEAD) by (intros ->; tauto).
    destruct (St5 a H) as [-> _], (St5 b X1) as [-> _]. destruct (Nm a H) as [<- _], (Nm b X1) as [<- _]. auto.
  - apply Col.
  - apply Col.
  - apply Col.
  - exact St5.
  - intros j J1 J2. destruct (keeps_set_red st4 y false j) as (_ & _ & ->). unfold st4. rewrite set_child_other by auto. destruct (K3 j) as (_ & _ & ->).
    unfold st2. rewrite supd_other, set_child_other by auto. unfold st1. destruct (keeps_set_red st e true j) as (_ & _ & ->). auto.
  - intros j J1 J2 J3 J4. assert (j <> y) by (intros ->; apply (Permutation_in _ Pm) in Y; destruct Y as [X|X]; auto).
    rewrite set_red_other by auto. unfold st4. rewrite set_child_other by auto. rewrite Fr3; auto. intros [X|X]; auto.
  - rewrite set_red_other by auto. unfold st4, set_child. rewrite !supd_same. rewrite rid_recolor.
    assert (X : ~ In self L0) by (cbn; intros [X|X]; auto). rewrite (Fr3 self); auto. unfold st2. rewrite supd_other by auto. unfold set_child. rewrite supd_same. unfold st1. rewrite set_red_other by auto. cbn. auto.
Qed.

(** what adding [e] to the children [t] of [self] may change *)
Record added (upper : list Z -> list Z) (st : store) (self e : Z) (t : tree) (st' : store) (t' : tree) : Prop := {
  ad_holds : holds st' self t'; ad_perm : Permutation (ids t') (e :: ids t); ad_sorted : sorted upper st' (ids t');
  ad_root : tred t' = false; ad_nrr : nrr t'; ad_bh : forall n, bh t n -> exists m, bh t' m;
  ad_names : forall j, j <> HEAD -> d_name (st' j) = d_name (st j) /\ d_kind (st' j) = d_kind (st j);
  ad_childs : forall j, j <> HEAD -> j <> self -> d_child (st' j) = d_child (st j);
  ad_frame : forall j, j <> HEAD -> j <> self -> j <> e -> ~ In j (ids t) -> st' j = st j;
  ad_self : st' self = set_child st self (rid t') self }.

Lemma add_child_ok : forall upper st self e maxn t, holds st self t -> tred t = false -> nrr t -> sorted upper st (ids t) ->
  e <> HEAD -> e <> self -> ~ In e (ids t) -> d_left (st e) = None -> d_right (st e) = None ->
  (forall j, In j (ids t) -> name_eq upper (d_name (st e)) (d_name (st j)) = false) -> zlen (ids t) < maxn ->
  exists st' t', add_child upper st self e maxn = Ok st' /\ added upper st self e t st' t'.
Proof.
  intros upper st self e maxn t H Tb Nr So He Hes Het El Er Ha Hm. unfold add_child.
  assert (Ot : forall j, j <> e -> set_red st e false j = st j) by (intros; apply set_red_other; auto).
  assert (Ch : d_child (set_red st e false self) = rid t) by (rewrite Ot; [apply (h_child _ _ _ H)|auto]). rewrite Ch.
  destruct t as [|c l x r].
  - cbn [rid]. exists (set_child (set_red st e false) self (Some e)), (Nd false Lf e Lf). split; auto. constructor.
    + constructor; cbn.
      * unfold set_child. rewrite supd_same. auto.
      * rewrite set_child_other by auto. unfold set_red. rewrite supd_same. cbn. auto.
      * repeat constructor; auto.
      * intros [X|[]]. auto.
      * intros [X|[]]. auto.
      * apply (h_pos _ _ _ H).
    + cbn. auto.
    + cbn. repeat constructor.
    + auto.
    + cbn. split; auto. 
    + intros n _. cbn. exists 1%nat, O. auto.
    + intros j Hj. unfold set_child, supd. destruct (j =? self) eqn:Q; cbn; [rewrite Ot; auto; assert (j = self) by lia; subst; auto|].
      destruct (keeps_set_red st e false j) as (-> & -> & _). auto.
    + intros j J1 J2. rewrite set_child_other by auto. destruct (keeps_set_red st e false j) as (_ & _ & ->). auto.
    + intros j J1 J2 J3 _. rewrite set_child_other, Ot; auto.
    + unfold set_child. rewrite !supd_same, Ot; auto.
  - cbn [rid]. set (t := Nd c l x r) in *.
    destruct (insert_ok upper (set_red st e false) self e maxn t) as (st' & t' & I & B1 & B2 & B3 & B4 & B5 & B6 & B7 & B8 & B9 & B10); auto.
    + destruct H. constructor; auto. eapply rep_ext; eauto. intros j Hj. apply Ot. intros ->. tauto.
    + discriminate.
    + eapply sorted_names; [|exact So]. intros j Hj. destruct (keeps_set_red st e false j) as (-> & _). auto.
    + change (kid (set_red st e false) e false = None). rewrite kid_set_red. auto.
    + change (kid (set_red st e false) e true = None). rewrite kid_set_red. auto.
    + intros j Hj. destruct (keeps_set_red st e false e) as (-> & _), (keeps_set_red st e false j) as (-> & _). auto.
    + exists st', t'. split; auto. constructor; auto.
      * intros j Hj. destruct (B7 j Hj) as [-> ->]. destruct (keeps_set_red st e false j) as (-> & -> & _). auto.
      * intros j J1 J2. rewrite (B8 j J1 J2). destruct (keeps_set_red st e false j) as (_ & _ & ->). auto.
      * intros j J1 J2 J3 J4. rewrite B9, Ot; auto.
      * rewrite B10. unfold set_child. rewrite !supd_same, Ot; auto.
Qed.
