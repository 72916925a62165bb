(** Copying class and type definitions into another file (register_external_classdef): what it keeps. *)
From Verif Require Import Base BaseFacts TypesModel TimelineModel MetaModel MetaFacts MetaTables PropsMeta.
From Coq Require Import ZArith List Bool String Lia.
Import ListNotations.
Open Scope Z_scope.

(** [p] is made from a property of the other file: its id is kept unless it is a dynamic one *)
Definition copied (src : meta) (p : pdef) : Prop :=
  exists k q t, In k (m_heap src) /\ In q (props k) /\ type_of src (p_type q) = Some t /\
    p_name p = p_name q /\ p_auid p = p_auid q /\ p_opt p = p_opt q /\ p_uniq p = p_uniq q /\ p_type p = t_auid t /\
    (p_pid q < 32768 -> p_pid p = p_pid q).
(** the same type, perhaps with more elements *)
Definition kind_up (k k' : tkind) : Prop :=
  k' = k \/ (exists o n, k = KExt o /\ k' = KExt n /\ incl o n) \/ (exists el o n, k = KEnum el o /\ k' = KEnum el n /\ incl o n).
Definition typ_up (t t' : tdef) : Prop := t_name t' = t_name t /\ t_auid t' = t_auid t /\ kind_up (t_kind t) (t_kind t').
Lemma kind_up_trans : forall a b c, kind_up a b -> kind_up b c -> kind_up a c.
Proof.
  intros a b c [->|[(o & n & -> & -> & I)|(el & o & n & -> & -> & I)]] H2; auto.
  - destruct H2 as [->|[(o' & n' & E & -> & I')|(el' & o' & n' & E & -> & I')]]; try discriminate; right; left.
    + exists o, n. auto.
    + injection E as <-. exists o, n'. split; [auto|split; [auto|eapply incl_tran; eauto]].
  - destruct H2 as [->|[(o' & n' & E & -> & I')|(el' & o' & n' & E & -> & I')]]; try discriminate; right; right.
    + exists el, o, n. auto.
    + injection E as <- <-. exists el, o, n'. split; [auto|split; [auto|eapply incl_tran; eauto]].
Qed.
Lemma typ_up_trans : forall a b c, typ_up a b -> typ_up b c -> typ_up a c.
Proof. intros a b c (A & B & C) (D & E & F). split; [congruence|split; [congruence|eapply kind_up_trans; eauto]]. Qed.
Lemma typ_up_refl : forall t, typ_up t t.
Proof. intros t. split; [auto|split; [auto|left; auto]]. Qed.

Definition gfrom (src m m' : meta) : Prop :=
  grows m m' /\
  (forall n h, sget (m_cname m) n = Some h -> sget (m_cname m') n = Some h) /\
  (forall a t, type_of m a = Some t -> exists t', type_of m' a = Some t' /\ typ_up t t') /\
  (forall h c' p, nth_error (m_heap m') h = Some c' -> In p (props c') -> (exists c, nth_error (m_heap m) h = Some c /\ In p (props c)) \/ copied src p).
Lemma gfrom_refl : forall src m, gfrom src m m.
Proof. intros src m. split; [apply grows_refl|]. split; [auto|]. split; [intros a t E; exists t; split; [auto|apply typ_up_refl]|]. eauto. Qed.
Lemma gfrom_trans : forall src a b c, gfrom src a b -> gfrom src b c -> gfrom src a c.
Proof.
  intros src a b c (A1 & A2 & A3 & A4) (B1 & B2 & B3 & B4). split; [eapply grows_trans; eauto|]. split; [auto|]. split.
  - intros x t E. apply A3 in E as (t1 & E & U). apply B3 in E as (t2 & E & V). exists t2. split; [auto|eapply typ_up_trans; eauto].
  - intros h c' p E I. destruct (B4 _ _ _ E I) as [(c1 & E1 & I1)|]; auto. apply (A4 _ _ _ E1 I1).
Qed.

(** ** Steps *)
Lemma insert_val_In : forall x l y, In y (insert_val x l) <-> y = x \/ In y l.
Proof.
  induction l as [|z l IH]; intros y; cbn; [intuition|]. destruct (fst x <? fst z); cbn; [intuition|]. rewrite IH. intuition.
Qed.
Lemma sort_vals_In : forall l y, In y (sort_vals l) <-> In y l.
Proof. induction l as [|x l IH]; intros y; cbn; [tauto|]. rewrite insert_val_In, IH. intuition. Qed.
Lemma add_elements_incl : forall s new l, incl l (add_elements s l new).
Proof.
  intros s. unfold add_elements. induction new as [|x new IH]; intros l; cbn [fold_left]; [apply incl_refl|]. eapply incl_tran; [|apply IH].
  unfold add_element. destruct (existsb _ l); [apply incl_refl|]. destruct s; intros y I; apply in_app_iff; left; auto. apply sort_vals_In. auto.
Qed.
Lemma same_classes_props : forall src m m', MInv m -> same_classes m m' -> (forall a t, type_of m a = Some t -> exists t', type_of m' a = Some t' /\ typ_up t t') ->
  MInv m' /\ gfrom src m m'.
Proof.
  intros src m m' M S T. destruct (same_classes_ok _ _ M S) as [M' G]. split; auto. destruct S as (A & B & C & D & E).
  split; auto. split; [rewrite B; auto|]. split; [auto|]. rewrite A. eauto.
Qed.
Lemma merge_elements_ok : forall src m t m', MInv m -> merge_elements m t = Ok m' -> MInv m' /\ gfrom src m m'.
Proof.
  intros src m t m' M E.
  assert (W : forall h o x, nth_error (m_theap m) h = Some o -> typ_up o x -> m' = with_type m h x -> MInv m' /\ gfrom src m m').
  { intros h o x O U ->. apply same_classes_props; [auto|repeat split|]. intros a y. unfold type_of. cbn [with_type m_tauid m_theap]. destruct (zget (m_tauid m) a) as [k|]; [|discriminate]. intros Y.
    destruct (Nat.eq_dec k h) as [->|Nk].
    - rewrite (upd_same _ _ _ _ _ O). exists x. split; [auto|]. congruence.
    - rewrite upd_other by auto. exists y. split; [auto|apply typ_up_refl]. }
  unfold merge_elements in E.
  destruct (t_kind t) as [| | | | | | | | |new| | | | | |] eqn:K; try (injection E as <-; split; [auto|apply gfrom_refl]);
  (destruct (zget (m_tauid m) (t_auid t)) as [h|]; [|discriminate]); destruct (nth_error (m_theap m) h) as [[n a k]|] eqn:N; try discriminate; destruct k; try discriminate; injection E as E; symmetry in E; eapply W; eauto;
    (split; [auto|split; [auto|]]).
  all: try (right; left; eexists; eexists; split; [reflexivity|split; [reflexivity|apply add_elements_incl]]).
  all: right; right; eexists; eexists; eexists; split; [reflexivity|split; [reflexivity|apply add_elements_incl]].
Qed.
Lemma enter_copy_type : forall m t, type_of (enter_copy m t) (t_auid t) = Some t.
Proof.
  intros m t. unfold enter_copy, enter_type, push_type, type_of. mcbn. rewrite zget_set, Z.eqb_refl. rewrite nth_error_app2, Nat.sub_diag; auto.
Qed.
Lemma enter_copy_ok : forall src m m1 t, MInv m1 -> gfrom src m m1 -> type_of m (t_auid t) = None -> MInv (enter_copy m1 t) /\ gfrom src m (enter_copy m1 t).
Proof.
  intros src m m1 t M (G1 & G2 & G3 & G4) N. assert (S : same_classes m1 (enter_copy m1 t)) by (repeat split). destruct (same_classes_ok _ _ M S) as [M' G]. split; auto.
  split; [eapply grows_trans; eauto|]. split; [exact G2|]. split; [|exact G4]. intros a x E. destruct (G3 _ _ E) as (x' & E' & U). exists x'. split; auto.
  unfold enter_copy, enter_type, push_type, type_of in *. mcbn. rewrite zget_set. destruct (Z.eqb_spec (t_auid t) a) as [<-|].
  - exfalso. unfold type_of in N, E. rewrite N in E. discriminate.
  - destruct (zget (m_tauid m1) a) as [k|]; [|discriminate]. apply nth_app_old. auto.
Qed.
(** a class registered without properties *)
Lemma register_bare : forall src m n a par conc m', MInv m -> register_classdef m (CRow n a par conc []) = Ok m' ->
  MInv m' /\ gfrom src m m' /\ exists h c, sget (m_cname m') n = Some h /\ nth_error (m_heap m') h = Some c /\
    (zget (m_cauid m') a = Some h \/ (c_auid c <> a /\ sget (m_cname m) n = Some h)).
Proof.
  intros src m n a par conc m' M E. destruct (register_classdef_ok _ _ _ M E) as (M' & G & Nm & (h & c & H1 & H2) & T1 & T2 & T3 & T4). cbn [cr_name] in H1. split; auto. split.
  - split; auto. split; auto. split; [intros x t X; exists t; split; [unfold type_of in *; rewrite T3, T1; auto|apply typ_up_refl]|].
    intros k c' p X I. left. unfold register_classdef, class_place in E. cbn [cr_name cr_auid cr_parent cr_conc cr_props register_props] in E.
    destruct (sget (m_cname m) n) as [h0|]; cbn [bind fst snd] in E.
    + unfold enter_class in E. destruct (nth_error (m_heap m) h0) eqn:X0; [|discriminate]. injection E as <-. cbn [m_heap] in X. eauto.
    + destruct (zget (m_cauid m) a); [discriminate|]. cbn [bind fst snd register_props] in E. unfold enter_class in E. destruct (nth_error _ (List.length (m_heap m))); [|discriminate]. injection E as <-. cbn [m_heap] in X.
      apply nth_app_new in X as [X|[_ ->]]; [eauto|destruct I].
  - exists h, c. split; auto. split; auto. unfold register_classdef, class_place in E. cbn [cr_name cr_auid cr_parent cr_conc cr_props register_props] in E.
    destruct (sget (m_cname m) n) as [h0|] eqn:S; cbn [bind fst snd] in E.
    + rewrite (Nm _ _ S) in H1. injection H1 as <-. destruct (Z.eq_dec (c_auid c) a) as [<-|D]; [left|right; auto].
      destruct M' as (_ & _ & _ & C). apply C. auto.
    + left. destruct (zget (m_cauid m) a) eqn:Z; [discriminate|]. cbn [bind fst snd register_props] in E. unfold enter_class in E.
      cbn [m_heap] in E. rewrite nth_error_app2, Nat.sub_diag in E by auto. cbn [nth_error] in E. injection E as <-. cbn [m_cname m_cauid m_heap] in *.
      rewrite sget_set, String.eqb_refl in H1. injection H1 as <-. cbn [c_auid]. rewrite zget_set, Z.eqb_refl. auto.
Qed.
Lemma register_copy_prop : forall src m h k p t m', MInv m -> In k (m_heap src) -> In p (props k) -> type_of src (p_type p) = Some t ->
  register_propertydef m h (PRow (p_name p) (p_auid p) (if 32768 <=? p_pid p then None else Some (p_pid p)) (t_auid t) (p_opt p) (p_uniq p)) = Ok m' ->
  MInv m' /\ gfrom src m m' /\ exists c p', nth_error (m_heap m') h = Some c /\ zget (c_props c) (p_auid p) = Some p'.
Proof.
  intros src m h k p t m' M Ik Ip T E. pose proof M as (P & _).
  assert (St : static_row (PRow (p_name p) (p_auid p) (if 32768 <=? p_pid p then None else Some (p_pid p)) (t_auid t) (p_opt p) (p_uniq p))).
  { unfold static_row. cbn [pr_pid]. destruct (Z.leb_spec 32768 (p_pid p)); auto. }
  destruct (register_propertydef_ok _ _ _ _ P St E) as [P' S]. split; [eapply skel_MInv; eauto|].
  destruct (register_propertydef_cases _ _ _ _ E) as (c & Ec & [[-> (p0 & Hp)]|(N & pid & st & H & Hb & Em)]).
  - split; [apply gfrom_refl|]. exists c, p0. cbn [pr_auid] in Hp. auto.
  - cbn [pr_auid pr_pid] in *. split.
    + split; [apply skel_grows; auto|]. destruct S as (Q1&Q2&Q3&Q4&Q5&Q6&Q7&Q8&Q9&Q10). split; [rewrite Q1; auto|].
      split; [intros a x X; exists x; split; [unfold type_of in *; rewrite Q6, Q4; auto|apply typ_up_refl]|].
      intros h' c' q X I. rewrite Em in X. cbn [with_pids with_class m_heap] in X. apply nth_upd in X as [[-> ->]|[_ X]]; [|left; eauto].
      apply props_add in I; [|auto]. destruct I as [I| ->]; [left; eauto|right]. exists k, p, t. cbn. split; [auto|]. split; [auto|]. split; [auto|]. repeat (split; [auto|]).
      intros Hs. destruct (Z.leb_spec 32768 (p_pid p)); [lia|]. destruct H as [[H _]|[H _]]; congruence.
    + rewrite Em. cbn [with_pids with_class m_heap]. rewrite (upd_same _ _ _ _ _ Ec). eexists. eexists. split; [reflexivity|]. unfold add_prop. cbn [c_props pr_auid]. rewrite zget_set, Z.eqb_refl. auto.
Qed.

Lemma each_ok : forall A (f : meta -> A -> result meta) (src : meta) (Q : A -> meta -> Prop) l,
  (forall x m m', Q x m -> gfrom src m m' -> Q x m') ->
  (forall x m m', In x l -> MInv m -> f m x = Ok m' -> MInv m' /\ gfrom src m m' /\ Q x m') ->
  forall m m', MInv m -> each f l m = Ok m' -> MInv m' /\ gfrom src m m' /\ forall x, In x l -> Q x m'.
Proof.
  intros A f src Q l Mono. induction l as [|x l IH]; intros St m m' M E; cbn [each] in E.
  - injection E as <-. split; auto. split; [apply gfrom_refl|intros x []].
  - destruct (f m x) as [m1|] eqn:F; [|discriminate]. cbn [bind] in E. destruct (St x m m1) as (M1 & G1 & Q1); [left; auto|auto|auto|].
    destruct (IH (fun y a b I => St y a b (or_intror I)) m1 m' M1 E) as (M2 & G2 & Q2). split; auto. split; [eapply gfrom_trans; eauto|].
    intros y [<-|I]; eauto.
Qed.

(** class [k] of the other file has arrived: under its identifier, or its properties went to a class
    that holds its name; the type of each property is there *)
Definition arrived (src : meta) (k : cdef) (m : meta) : Prop :=
  exists h k', nth_error (m_heap m) h = Some k' /\
    (zget (m_cauid m) (c_auid k) = Some h \/ (c_auid k' <> c_auid k /\ sget (m_cname m) (c_name k) = Some h)) /\
    forall p, In p (props k) -> (exists p', zget (c_props k') (p_auid p) = Some p') /\ exists t t', type_of src (p_type p) = Some t /\ type_of m (t_auid t) = Some t'.
Lemma arrived_up : forall src k m m', arrived src k m -> gfrom src m m' -> arrived src k m'.
Proof.
  intros src k m m' (h & k' & E & D & P) ((G1 & G2 & G3) & N & T & _). destruct (G3 _ _ E) as (k2 & E2 & (H1 & H2 & _) & K). exists h, k2. split; auto. split.
  - destruct D as [D|[D1 D2]]; [left; auto|right; split; [congruence|auto]].
  - intros p I. destruct (P p I) as ((p' & Hp) & t & t' & Ht & Ht'). split; [exists p'; auto|]. destruct (T _ _ Ht') as (t2 & Ht2 & _). eauto.
Qed.

Lemma external_ok : forall fuel,
  (forall src dst t dst', MInv dst -> external_type fuel src dst t = Ok dst' -> MInv dst' /\ gfrom src dst dst' /\ type_of dst' (t_auid t) <> None) /\
  (forall src dst c dst', MInv dst -> In c (m_heap src) -> external_class fuel src dst c = Ok dst' ->
     MInv dst' /\ gfrom src dst dst' /\ forall l, relatives src c = Ok l -> forall k, In k (tl (rev l)) -> arrived src k dst').
Proof.
  induction fuel as [|fuel [IHt IHc]]; [split; intros; discriminate|]. split.
  - intros src dst t dst' M E. cbn [external_type] in E.
    match type of E with bind ?x _ = _ => destruct x as [m1|] eqn:E1; [|discriminate] end. cbn [bind] in E.
    assert (K : MInv m1 /\ gfrom src dst m1 /\ type_of m1 (t_auid t) <> None).
    { destruct (type_of dst (t_auid t)) as [x|] eqn:X; [injection E1 as <-; split; [auto|split; [apply gfrom_refl|congruence]]|].
      match type of E1 with bind ?x _ = _ => destruct x as [m2|] eqn:E2; [|discriminate] end. cbn [bind] in E1.
      destruct (copy_typedef fuel src m2 t) as [c|] eqn:C; [|discriminate]. cbn [bind] in E1. injection E1 as <-.
      assert (Ca : t_auid c = t_auid t).
      { unfold copy_typedef in C. match type of C with bind ?x _ = _ => destruct x as [k|]; [|discriminate] end. cbn [bind] in C. unfold new_type in C. cbn [t_kind t_name t_auid] in C.
        destruct k; try (injection C as <-; reflexivity). destruct (char_size_pid m2); [|discriminate]. injection C as <-. reflexivity. }
      assert (W : MInv m2 /\ gfrom src dst m2).
      { assert (El : forall a, (match type_of src a with None => Ok dst | Some e => external_type fuel src dst e end) = Ok m2 -> MInv m2 /\ gfrom src dst m2).
        { intros a Ea. destruct (type_of src a); [apply IHt in Ea; tauto|]. injection Ea as <-. split; [auto|apply gfrom_refl]. }
        assert (Cl : forall a, (match class_of src a with None => Err GenericError | Some c => external_class fuel src dst c end) = Ok m2 -> MInv m2 /\ gfrom src dst m2).
        { intros a Ea. destruct (class_of src a) as [k|] eqn:Ek; [|discriminate]. apply IHc in Ea; [tauto|auto|]. unfold class_of in Ek. destruct (zget (m_cauid src) a); [|discriminate]. eapply nth_error_In; eauto. }
        destruct (t_kind t); try (injection E2 as <-; split; [auto|apply gfrom_refl]); eauto.
        eapply (each_ok _ _ src (fun _ _ => True)) in E2; [tauto|auto| |auto]. intros x m m' _ Mm Ex. destruct (type_of src (snd x)); [apply IHt in Ex; tauto|]. injection Ex as <-. split; [auto|split; [apply gfrom_refl|auto]]. }
      destruct W as [W1 W2]. destruct (enter_copy_ok src dst m2 c W1 W2) as [Y1 Y2]; [congruence|]. split; auto. split; auto. rewrite <- Ca, enter_copy_type. discriminate. }
    destruct K as (M1 & G1 & T1). destruct (merge_elements_ok src _ _ _ M1 E) as [M2 G2]. split; auto. split; [eapply gfrom_trans; eauto|].
    destruct (type_of m1 (t_auid t)) as [x|] eqn:X; [|congruence]. destruct G2 as (_ & _ & T & _). destruct (T _ _ X) as (x' & -> & _). discriminate.
  - intros src dst c dst' M Ic E. cbn [external_class] in E. destruct (relatives src c) as [l|] eqn:R; [|discriminate]. cbn [bind] in E.
    assert (Hl : forall k, In k (tl (rev l)) -> In k (m_heap src)).
    { intros k I. assert (I2 : In k l). { apply in_rev. destruct (rev l); [destruct I|right; auto]. } apply relatives_iff in R. destruct (lineage_heap _ _ _ R) as [L1 L2]. destruct l as [|y l]; [destruct I2|]. cbn in L2. injection L2 as ->. destruct I2 as [<-|I2]; auto. }
    eapply (each_ok _ _ src (arrived src)) in E; [|intros; eapply arrived_up; eauto| |auto].
    + destruct E as (A & B & C). split; auto. split; auto. intros l' El. injection El as <-. auto.
    + intros k m m' Ik Mm Ek. specialize (Hl _ Ik).
      match type of Ek with bind ?x _ = _ => destruct x as [[m1 h]|] eqn:E1; [|discriminate] end. cbn [bind fst snd] in Ek.
      assert (K : MInv m1 /\ gfrom src m m1 /\ exists k1, nth_error (m_heap m1) h = Some k1 /\ (zget (m_cauid m1) (c_auid k) = Some h \/ (c_auid k1 <> c_auid k /\ sget (m_cname m1) (c_name k) = Some h))).
      { destruct (zget (m_cauid m) (c_auid k)) as [h0|] eqn:Z.
        - injection E1 as <- <-. split; auto. split; [apply gfrom_refl|]. destruct Mm as (_ & _ & B & _). destruct (B _ _ Z) as (k1 & X & _). exists k1. auto.
        - destruct (parent src k) as [pa|]; [|discriminate]. destruct (register_classdef m _) as [m2|] eqn:E2; [|discriminate]. cbn [bind] in E1.
          destruct (register_bare src _ _ _ _ _ _ Mm E2) as (M2 & G2 & h2 & k2 & S2 & X2 & D2). rewrite S2 in E1. injection E1 as <- <-. split; auto. split; auto. exists k2. split; auto.
          destruct D2 as [D2|[D2 D3]]; [auto|right; split; auto]. }
      destruct K as (M1 & G1 & k1 & X1 & D1).
      eapply (each_ok _ _ src (fun p m => exists k2 p', nth_error (m_heap m) h = Some k2 /\ zget (c_props k2) (p_auid p) = Some p' /\ exists t t', type_of src (p_type p) = Some t /\ type_of m (t_auid t) = Some t')) in Ek; [| | |auto].
      * destruct Ek as (M2 & G2 & Q2). split; auto. split; [eapply gfrom_trans; eauto|]. destruct G2 as ((G2a & G2b & G2c) & G2d & _). destruct (G2c _ _ X1) as (k2 & X2 & (_ & Hk & _) & _).
        exists h, k2. split; auto. split; [destruct D1 as [D1|[D1 D1']]; [left; auto|right; split; [congruence|auto]]|].
        intros p Ip. destruct (Q2 p Ip) as (k3 & p' & X3 & Hp & Ht). assert (k3 = k2) by congruence. subst k3. eauto.
      * intros p a b (k2 & p' & X2 & Hp & t & t' & Ht & Ht') ((_ & _ & Gc) & _ & T & _). destruct (Gc _ _ X2) as (k3 & X3 & _ & K3). destruct (T _ _ Ht') as (t2 & Ht2 & _). exists k3, p'. eauto 10.
      * intros p a b Ip Ma Ep. destruct (type_of src (p_type p)) as [t|] eqn:T; [|discriminate]. destruct (external_type fuel src a t) as [a1|] eqn:Ea; [|discriminate]. cbn [bind] in Ep.
        apply IHt in Ea as (Ma1 & Ga1 & Ta1); auto. destruct (register_copy_prop src _ _ k p t _ Ma1 Hl Ip T Ep) as (Mb & Gb & k2 & p' & X2 & Hp). split; auto. split; [eapply gfrom_trans; eauto|].
        exists k2, p'. split; auto. split; auto. destruct (type_of a1 (t_auid t)) as [x|] eqn:Xx; [|congruence]. destruct Gb as (_ & _ & Tb & _). destruct (Tb _ _ Xx) as (x' & Xx' & _). eauto.
Qed.
