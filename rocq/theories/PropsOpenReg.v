(** C67: registrations after a file was opened, and opening with the extensions. *)
From Verif Require Import Base BaseFacts TypesModel TimelineModel MetaModel MetaFacts MetaTables PropsMeta PropsBuiltin PropsMetaCopy PropsMetaMore OpenMetaModel OpenMetaFacts PropsOpenMeta PropsOpenRun PropsOpenCases.
From Coq Require Import ZArith List Bool String Lia.
Import ListNotations.
Open Scope Z_scope.

(** ** The invariant, of the class objects with indices in [P] *)
Definition InvP (n0 : Z) (P : nat -> Prop) (m : meta) : Prop :=
  (forall h c, P h -> nth_error (m_heap m) h = Some c -> NoDup (map fst (c_props c)) /\ forall k p, zget (c_props c) k = Some p -> p_auid p = k) /\
  (forall h c p, P h -> nth_error (m_heap m) h = Some c -> In p (props c) -> 32768 <= p_pid p -> In (p_pid p) (snd (m_pids m)) \/ n0 < p_pid p) /\
  (forall h1 c1 p1 h2 c2 p2, P h1 -> P h2 -> nth_error (m_heap m) h1 = Some c1 -> In p1 (props c1) -> nth_error (m_heap m) h2 = Some c2 -> In p2 (props c2) ->
    p_pid p1 = p_pid p2 -> 32768 <= p_pid p1 -> h1 = h2 /\ p1 = p2) /\
  fst (m_pids m) <= n0.
(** class objects keep their identifier and their properties *)
Definition grows (m m' : meta) : Prop :=
  forall h c, nth_error (m_heap m) h = Some c -> exists c', nth_error (m_heap m') h = Some c' /\ c_auid c' = c_auid c /\ c_name c' = c_name c /\ incl (props c) (props c').
Lemma grows_refl : forall m, grows m m.
Proof. intros m h c H. exists c. repeat split; auto. apply incl_refl. Qed.
Lemma grows_trans : forall a b c, grows a b -> grows b c -> grows a c.
Proof.
  intros a b c A B h x H. destruct (A _ _ H) as (y & Y & Y1 & Y2 & Y3). destruct (B _ _ Y) as (z & Hz & Z1 & Z2 & Z3). exists z. split; [exact Hz|]. split; [congruence|]. split; [congruence|]. eapply incl_tran; eauto.
Qed.
(** ids of the program's own: static *)
Definition row_ok (r : prow) : Prop := match pr_pid r with None => True | Some pid => pid < 32768 end.

Lemma zset_In : forall (d : list (Z * pdef)) k v, zget d k = None -> forall p, In p (map snd (zset d k v)) <-> In p (map snd d) \/ p = v.
Proof.
  intros d k v H p. rewrite zset_new by auto. rewrite map_app, in_app_iff. cbn. split; intros [X|X]; auto. destruct X as [X|[]]; auto.
Qed.
Lemma zset_nodup : forall (d : list (Z * pdef)) k v, NoDup (map fst d) -> NoDup (map fst (zset d k v)).
Proof. intros. apply zset_keys. auto. Qed.

Lemma register_prop_inv : forall n0 P m h r m', InvP n0 P m -> P h -> row_ok r -> register_prop m h r = Ok m' ->
  InvP n0 P m' /\ grows m m' /\ m_cname m' = m_cname m /\ m_cauid m' = m_cauid m /\ List.length (m_heap m') = List.length (m_heap m).
Proof.
  intros n0 P m h r m' (I1 & I2 & I3 & I4) Ph Rk E. unfold register_prop in E.
  assert (X : exists x st, (match pr_pid r with None => next_free_pid (m_pids m) | Some pid => do s <- claim_pid (m_pids m) pid ;; Ok (pid, s) end) = Ok (x, st) /\
     incl (snd (m_pids m)) (snd st) /\ fst st <= n0 /\ (x < 32768 \/ (x <= n0 /\ ~ In x (snd (m_pids m)) /\ In x (snd st)))).
  { destruct (match pr_pid r with None => _ | Some pid => _ end) as [[x st]|] eqn:Q; [|discriminate]. exists x, st. split; [reflexivity|]. unfold row_ok in Rk. destruct (pr_pid r) as [pid|].
    - destruct (claim_pid (m_pids m) pid) as [s|] eqn:C; [|discriminate]. cbn [bind] in Q. injection Q as <- <-. apply claim_fresh in C as [[C ->]|[C _]]; [|lia]. split; [apply incl_refl|]. split; [exact I4|auto].
    - destruct (next_free_fresh _ _ _ Q) as [F1 F2]. destruct (next_free_le _ _ _ Q) as [F3 F4]. rewrite F2. split; [apply incl_tl, incl_refl|]. split; [lia|]. right. split; [lia|]. split; [exact F1|left; reflexivity]. }
  destruct X as (x & st & Q & S1 & S2 & S3). rewrite Q in E. cbn [bind fst snd] in E. clear Q. unfold register_propertydef in E. cbn [with_pids m_heap m_pids pr_auid pr_pid] in E.
  destruct (nth_error (m_heap m) h) as [c|] eqn:C; [|discriminate].
  assert (Same : InvP n0 P (with_pids m st)).
  { split; [exact I1|]. split; [|split; [exact I3|exact S2]]. intros k d p Pk D Ip Dy. destruct (I2 k d p Pk D Ip Dy) as [H|H]; [left; apply S1; exact H|auto]. }
  destruct (zget (c_props c) (pr_auid r)) as [p0|] eqn:Z0.
  - injection E as <-. split; [exact Same|]. split; [exact (grows_refl m)|]. auto.
  - cbn [bind fst snd] in E. destruct ((0 <=? x) && (x <=? 65535)); [|discriminate]. cbn [bind] in E. injection E as <-.
    set (p := PDef (pr_name r) (pr_auid r) x (pr_type r) (pr_opt r) (pr_uniq r)). set (c' := CDef (c_name c) (c_auid c) (c_parent c) (c_conc c) (zset (c_props c) (pr_auid r) p) (zset (c_bypid c) x p)).
    assert (U : forall k d, nth_error (upd_nth (m_heap m) h c') k = Some d -> (k = h /\ d = c') \/ (k <> h /\ nth_error (m_heap m) k = Some d)).
    { intros k d D. destruct (Nat.eq_dec k h) as [->|NE]; [left; rewrite (upd_same _ _ _ _ _ C) in D; split; congruence|right; rewrite upd_other in D; auto]. }
    assert (Pc : forall q, In q (props c') <-> In q (props c) \/ q = p) by (intros q; unfold props, c'; cbn [c_props]; apply zset_In; exact Z0).
    cbn [with_pids with_class m_heap m_pids m_cname m_cauid] in *.
    split; [|split; [|split; [reflexivity|split; [reflexivity|apply upd_len]]]].
    + split; [|split; [|split; [|exact S2]]]; cbn [with_pids with_class m_heap m_pids fst snd].
      * intros k d Pk D. apply U in D as [[-> ->]|[_ D]]; [|exact (I1 k d Pk D)]. destruct (I1 h c Ph C) as [N K]. split; [apply zset_nodup; exact N|]. intros j q Hq. unfold c' in Hq. cbn [c_props] in Hq. rewrite zget_set in Hq.
        destruct (Z.eqb_spec (pr_auid r) j) as [Ej|_]; [injection Hq as <-; exact Ej|apply K; exact Hq].
      * intros k d q Pk D Iq Dy. apply U in D as [[-> ->]|[_ D]]; [|destruct (I2 k d q Pk D Iq Dy) as [H|H]; [left; apply S1; exact H|auto]].
        apply Pc in Iq as [Iq| ->]; [destruct (I2 h c q Ph C Iq Dy) as [H|H]; [left; apply S1; exact H|auto]|]. change (p_pid p) with x in *. left. destruct S3 as [S3|(_ & _ & S3)]; [lia|exact S3].
      * assert (Fr : forall k d q, P k -> nth_error (m_heap m) k = Some d -> In q (props d) -> 32768 <= x -> p_pid q <> x).
        { intros k d q Pk D Iq Dx Eq. destruct S3 as [S3|(S3 & S4 & _)]; [lia|]. destruct (I2 k d q Pk D Iq) as [H|H]; [lia| |lia]. apply S4. rewrite <- Eq. exact H. }
        intros h1 c1 p1 h2 c2 p2 P1 P2 D1 J1 D2 J2 Eq Dy. apply U in D1 as [[-> ->]|[N1 D1]]; apply U in D2 as [[-> ->]|[N2 D2]].
        -- split; [reflexivity|]. apply Pc in J1 as [J1| ->]; apply Pc in J2 as [J2| ->]; [apply (I3 h c p1 h c p2 Ph Ph C J1 C J2 Eq Dy)| | |reflexivity]; exfalso.
           ++ change (p_pid p) with x in *. apply (Fr h c p1 Ph C J1); [change (p_pid p) with x in *; lia|exact Eq].
           ++ change (p_pid p) with x in *. apply (Fr h c p2 Ph C J2); [lia|auto].
        -- apply Pc in J1 as [J1| ->]; [apply (I3 h c p1 h2 c2 p2 Ph P2 C J1 D2 J2 Eq Dy)|exfalso]. change (p_pid p) with x in *. apply (Fr h2 c2 p2 P2 D2 J2); [lia|auto].
        -- apply Pc in J2 as [J2| ->]; [apply (I3 h1 c1 p1 h c p2 P1 Ph D1 J1 C J2 Eq Dy)|exfalso]. change (p_pid p) with x in *. apply (Fr h1 c1 p1 P1 D1 J1); [lia|exact Eq].
        -- apply (I3 h1 c1 p1 h2 c2 p2 P1 P2 D1 J1 D2 J2 Eq Dy).
    + intros k d D. destruct (Nat.eq_dec k h) as [->|NE].
      * assert (d = c) as -> by congruence. exists c'. split; [eapply upd_same; exact C|]. split; [reflexivity|]. split; [reflexivity|]. intros q Iq. apply Pc. auto.
      * exists d. cbn [with_pids with_class m_heap]. rewrite upd_other by auto. split; [exact D|]. split; [reflexivity|]. split; [reflexivity|apply incl_refl].
Qed.
Lemma register_props_inv : forall n0 P h l m m', InvP n0 P m -> P h -> (forall r, In r l -> row_ok r) -> register_props m h l = Ok m' ->
  InvP n0 P m' /\ grows m m' /\ m_cname m' = m_cname m /\ m_cauid m' = m_cauid m /\ List.length (m_heap m') = List.length (m_heap m).
Proof.
  intros n0 P h. induction l as [|r l IH]; intros m m' I Ph R E; cbn [register_props] in E; [injection E as <-; split; [exact I|]; split; [apply grows_refl|auto]|].
  destruct (register_prop m h r) as [m1|] eqn:E1; [|discriminate]. cbn [bind] in E. destruct (register_prop_inv n0 P m h r m1 I Ph (R r (or_introl eq_refl)) E1) as (A1 & A2 & A3 & A4 & A5).
  destruct (IH m1 m' A1 Ph (fun q J => R q (or_intror J)) E) as (B1 & B2 & B3 & B4 & B5). split; [exact B1|]. split; [eapply grows_trans; eauto|]. split; [congruence|]. split; congruence.
Qed.

(** ** Classes *)
Definition found (m : meta) (h : nat) : Prop := exists a, zget (m_cauid m) a = Some h.
(** the class of that name, if there is one, is the one its identifier leads to *)
Definition live (m : meta) (n : string) : Prop := forall h, sget (m_cname m) n = Some h -> exists c, nth_error (m_heap m) h = Some c /\ zget (m_cauid m) (c_auid c) = Some h.
Definition Inv (n0 : Z) (m : meta) : Prop := (forall a h, zget (m_cauid m) a = Some h -> exists c, nth_error (m_heap m) h = Some c /\ c_auid c = a) /\ InvP n0 (found m) m.
Definition stays (m m' : meta) : Prop := grows m m' /\ forall a h, zget (m_cauid m) a = Some h -> zget (m_cauid m') a = Some h.
Lemma InvP_weak : forall n0 (P Q : nat -> Prop) m, (forall h, Q h -> P h) -> InvP n0 P m -> InvP n0 Q m.
Proof. intros n0 P Q m H (A & B & C & D). split; [|split; [|split]]; [intros; eapply A; eauto|intros; eapply B; eauto|intros; eapply C; eauto|exact D]. Qed.
Definition crow_ok (r : crow) : Prop := forall p, In p (cr_props r) -> row_ok p.
Lemma register_class_inv : forall n0 m r m', Inv n0 m -> live m (cr_name r) -> crow_ok r -> register_classdef m r = Ok m' ->
  Inv n0 m' /\ stays m m' /\ forall n, live m n -> live m' n.
Proof.
  intros n0 m r m' [W I] Lv R E. unfold register_classdef in E. destruct (class_place m _ _ _ _) as [[m0 h]|] eqn:Cp; [|discriminate]. cbn [bind fst snd] in E.
  assert (X : InvP n0 (fun k => found m k \/ k = h) m0 /\ grows m m0 /\ m_cauid m0 = m_cauid m /\ m_cname m0 = m_cname m /\
    exists c, nth_error (m_heap m0) h = Some c /\ (zget (m_cauid m) (c_auid c) = Some h \/ zget (m_cauid m) (c_auid c) = None)).
  { unfold class_place in Cp. destruct (sget (m_cname m) (cr_name r)) as [k|] eqn:Sn.
    - injection Cp as <- <-. destruct (Lv k Sn) as (c & C & Cz). split; [eapply InvP_weak; [|exact I]; intros k' [H| ->]; [exact H|exists (c_auid c); exact Cz]|]. split; [apply grows_refl|]. split; [reflexivity|]. split; [reflexivity|]. exists c. auto.
    - destruct (zget (m_cauid m) (cr_auid r)) eqn:Za; [discriminate|]. injection Cp as <- <-. set (c := CDef _ _ _ _ [] []).
      assert (O : forall k d, nth_error (m_heap m ++ [c]) k = Some d -> (nth_error (m_heap m) k = Some d) \/ (k = List.length (m_heap m) /\ d = c)).
      { intros k d D. apply nth_app_new in D as [D|D]; [left; exact D|right; exact D]. }
      assert (Fk : forall k d, found m k -> nth_error (m_heap m ++ [c]) k = Some d -> nth_error (m_heap m) k = Some d).
      { intros k d (a & Ha) D. destruct (W _ _ Ha) as (e & He & _). rewrite (nth_app_old _ _ c _ _ He) in D. congruence. }
      destruct I as (I1 & I2 & I3 & I4). split; [|split; [|split; [reflexivity|split; [reflexivity|]]]].
      + split; [|split; [|split; [|exact I4]]]; cbn [m_heap m_pids].
        * intros k d Pk D. apply O in D as [D|[_ ->]]; [|split; [constructor|discriminate]]. destruct Pk as [Pk| ->]; [exact (I1 k d Pk D)|]. exfalso. assert (H : nth_error (m_heap m) (List.length (m_heap m)) <> None) by congruence. apply nth_error_Some in H. lia.
        * intros k d p Pk D Ip Dy. apply O in D as [D|[_ ->]]; [|destruct Ip]. destruct Pk as [Pk| ->]; [exact (I2 k d p Pk D Ip Dy)|]. exfalso. assert (H : nth_error (m_heap m) (List.length (m_heap m)) <> None) by congruence. apply nth_error_Some in H. lia.
        * assert (G : forall k d p, (found m k \/ k = List.length (m_heap m)) -> nth_error (m_heap m ++ [c]) k = Some d -> In p (props d) -> found m k /\ nth_error (m_heap m) k = Some d).
          { intros k d p Pk D Ip. apply O in D as [D|[_ ->]]; [|destruct Ip]. destruct Pk as [Pk| ->]; [auto|]. exfalso. assert (H : nth_error (m_heap m) (List.length (m_heap m)) <> None) by congruence. apply nth_error_Some in H. lia. }
          intros h1 c1 p1 h2 c2 p2 P1 P2 D1 J1 D2 J2. destruct (G _ _ _ P1 D1 J1) as [F1 N1]. destruct (G _ _ _ P2 D2 J2) as [F2 N2]. eapply I3; eauto.
      + intros k d D. exists d. split; [apply nth_app_old; exact D|]. split; [reflexivity|]. split; [reflexivity|apply incl_refl].
      + exists c. split; [apply nth_new|right; exact Za]. }
  destruct X as (I0 & G0 & A0 & N0 & c0 & C0 & Z0). destruct (register_props m0 h (cr_props r)) as [m1|] eqn:E1; [|discriminate]. cbn [bind] in E.
  destruct (register_props_inv n0 _ h _ m0 m1 I0 (or_intror eq_refl) R E1) as (I1 & G1 & N1 & A1 & _). unfold enter_class in E. destruct (nth_error (m_heap m1) h) as [c1|] eqn:C1; [|discriminate]. injection E as <-.
  destruct (G1 _ _ C0) as (c1' & C1' & Ea & _). assert (c1' = c1) as -> by congruence.
  assert (St : forall a k, zget (m_cauid m) a = Some k -> zget (zset (m_cauid m1) (c_auid c1) h) a = Some k).
  { intros a k H. rewrite zget_set, A1, A0. destruct (Z.eqb_spec (c_auid c1) a) as [Eq|_]; [|exact H]. rewrite Ea in Eq. rewrite Eq in Z0. destruct Z0 as [Z0|Z0]; congruence. }
  pose proof (grows_trans _ _ _ G0 G1) as G. split; [|split; [split; [exact G|exact St]|]].
  - split; cbn [m_cauid m_heap].
    + intros a k H. rewrite zget_set, A1, A0 in H. destruct (Z.eqb_spec (c_auid c1) a) as [Eq|_]; [injection H as <-; exists c1; auto|]. destruct (W _ _ H) as (d & D & Da). destruct (G _ _ D) as (d' & D' & Da' & _). exists d'. split; [exact D'|congruence].
    + apply InvP_weak with (P := fun k => found m k \/ k = h); [|exact I1]. intros k (a & H). cbn [m_cauid] in H. rewrite zget_set, A1, A0 in H. destruct (Z.eqb_spec (c_auid c1) a) as [_|_]; [injection H as <-; auto|left; exists a; exact H].
  - intros n Ln k Hk. cbn [m_cname m_heap m_cauid] in *. rewrite sget_set, N1, N0 in Hk. destruct (String.eqb_spec (cr_name r) n) as [_|_].
    + injection Hk as <-. exists c1. split; [exact C1|]. rewrite zget_set, Z.eqb_refl. reflexivity.
    + destruct (Ln k Hk) as (d & D & Dz). destruct (G _ _ D) as (d' & D' & Da & _). exists d'. split; [exact D'|]. rewrite Da. apply St. exact Dz.
Qed.
Lemma stays_refl : forall m, stays m m.
Proof. intros m. split; [apply grows_refl|auto]. Qed.
Lemma stays_trans : forall a b c, stays a b -> stays b c -> stays a c.
Proof. intros a b c [A1 A2] [B1 B2]. split; [eapply grows_trans; eauto|auto]. Qed.
Lemma register_classes_inv : forall n0 l m m', Inv n0 m -> (forall r, In r l -> live m (cr_name r) /\ crow_ok r) -> register_classes m l = Ok m' -> Inv n0 m' /\ stays m m'.
Proof.
  intros n0. induction l as [|r l IH]; intros m m' I L E; cbn [register_classes] in E; [injection E as <-; split; [exact I|apply stays_refl]|].
  destruct (register_classdef m r) as [m1|] eqn:E1; [|discriminate]. cbn [bind] in E. destruct (L r (or_introl eq_refl)) as [L1 L2]. destruct (register_class_inv n0 m r m1 I L1 L2 E1) as (A1 & A2 & A3).
  destruct (IH m1 m' A1) as [B1 B2]; [|exact E|split; [exact B1|eapply stays_trans; eauto]]. intros q J. destruct (L q (or_intror J)) as [Q1 Q2]. split; [apply A3; exact Q1|exact Q2].
Qed.
(** the class side is the same *)
Definition same_classes (m m' : meta) : Prop := m_heap m' = m_heap m /\ m_cauid m' = m_cauid m /\ m_pids m' = m_pids m.
Lemma register_aliases_same : forall l m m', register_aliases m l = Ok m' -> same_classes m m'.
Proof.
  induction l as [|a l IH]; intros m m' E; cbn [register_aliases] in E; [injection E as <-; repeat split|]. unfold register_alias in E. destruct (sget (m_cname m) (snd a)); [|discriminate]. cbn [bind] in E. apply IH in E as (A & B & C). repeat split; auto.
Qed.
Lemma register_types_same : forall l m m', register_types m l = Ok m' -> same_classes m m'.
Proof.
  induction l as [|t l IH]; intros m m' E; cbn [register_types] in E; [injection E as <-; repeat split|]. destruct (register_type m t) as [m1|] eqn:E1; [|discriminate]. cbn [bind] in E. apply IH in E as (A & B & C).
  assert (X : same_classes m m1).
  { unfold register_type in E1. destruct (t_kind t), (sget (m_tname m) (t_name t)) as [k|];
      try (destruct (nth_error (m_theap m) k) as [[? ? []]|]; try discriminate; injection E1 as <-; repeat split);
      (destruct (new_type m t); [|discriminate]; cbn [bind] in E1; injection E1 as <-; repeat split). }
  destruct X as (X1 & X2 & X3). split; [congruence|]. split; congruence.
Qed.
Lemma same_inv : forall n0 m m', same_classes m m' -> Inv n0 m -> Inv n0 m'.
Proof.
  intros n0 m m' (A & B & C) [W I]. split; [rewrite B, A; exact W|]. unfold InvP, found in *. rewrite A, B, C. exact I.
Qed.

(** ** C67: after a file was opened *)
Lemma read_inv : forall m fc ft m', base_model = Ok m -> sound_file fc ft -> read_dictionary true m fc ft = Ok m' -> Inv (fst (m_pids m)) m'.
Proof.
  intros m fc ft m' B F E. pose proof (C67_ids m fc ft m' B F E) as [U _]. pose proof (base_start m B) as S. clear B. destruct (read_facts m fc ft m' S F E) as (((W & K) & clean & (_ & I2 & _ & I4) & _) & _).
  pose proof W as (_ & W2 & _). split; [exact W2|].
  assert (Cl : forall h c, found m' h -> nth_error (m_heap m') h = Some c -> class_of m' (c_auid c) = Some c /\ zget (m_cauid m') (c_auid c) = Some h).
  { intros h c (a & Ha) C. destruct (W2 _ _ Ha) as (d & D & Da). assert (d = c) as -> by congruence. rewrite Da. split; [unfold class_of; rewrite Ha; exact C|exact Ha]. }
  split; [|split; [|split; [|exact I4]]].
  - intros h c Fh C. destruct (Cl _ _ Fh C) as [Cc _]. pose proof (K _ _ Cc) as Kc. split; [apply Kc|]. intros k p. apply zget_keys. exact Kc.
  - intros h c p Fh C Ip D. destruct (Cl _ _ Fh C) as [Cc _]. destruct (I2 _ _ _ _ Cc (proj2 (keys_props c (K _ _ Cc)) p Ip) D) as [H|[H _]]; auto.
  - intros h1 c1 p1 h2 c2 p2 F1 F2 C1 J1 C2 J2 Eq D. destruct (Cl _ _ F1 C1) as [D1 Z1]. destruct (Cl _ _ F2 C2) as [D2 Z2]. destruct (U _ _ _ _ _ _ D1 J1 D2 J2 D Eq) as [A ->]. split; [|reflexivity]. rewrite A in Z1. congruence.
Qed.
Lemma inv_ids : forall n0 m, Inv n0 m ->
  (forall a c p b d q, class_of m a = Some c -> In p (props c) -> class_of m b = Some d -> In q (props d) -> 32768 <= p_pid p -> p_pid p = p_pid q -> a = b /\ p = q) /\
  (forall x st, next_free_pid (m_pids m) = Ok (x, st) -> 32768 <= x -> forall a c p, class_of m a = Some c -> In p (props c) -> p_pid p <> x).
Proof.
  intros n0 m (W & _ & I2 & I3 & I4).
  assert (Cl : forall a c, class_of m a = Some c -> exists h, found m h /\ nth_error (m_heap m) h = Some c /\ c_auid c = a).
  { intros a c X. unfold class_of in X. destruct (zget (m_cauid m) a) as [h|] eqn:Hz; [|discriminate]. destruct (W _ _ Hz) as (d & D & Da). exists h. split; [exists a; exact Hz|]. split; [exact X|congruence]. }
  split.
  - intros a c p b d q X I Y J D Eq. destruct (Cl _ _ X) as (h & F & C & <-). destruct (Cl _ _ Y) as (k & G & E & <-). destruct (I3 h c p k d q F G C I E J Eq D) as [-> ->]. split; [congruence|reflexivity].
  - intros x st NF Dx a c p X I Eq. destruct (Cl _ _ X) as (h & F & C & _). destruct (next_free_fresh _ _ _ NF) as [N1 _]. destruct (next_free_le _ _ _ NF) as [N2 _].
    destruct (I2 h c p F C I) as [H|H]; [lia| |lia]. apply N1. rewrite <- Eq. exact H.
Qed.
Lemma stays_class : forall m m', stays m m' -> forall a c, class_of m a = Some c -> exists c', class_of m' a = Some c' /\ c_auid c' = c_auid c /\ c_name c' = c_name c /\ incl (props c) (props c').
Proof.
  intros m m' [G Z1] a c X. unfold class_of in X. destruct (zget (m_cauid m) a) as [h|] eqn:Hz; [|discriminate]. destruct (G _ _ X) as (c' & C' & R). exists c'. split; [unfold class_of; rewrite (Z1 _ _ Hz); exact C'|exact R].
Qed.
(** What a program registers in an opened file, in classes whose names lead where their identifiers do,
    with ids that are static or chosen by the library: ids stay distinct, the next one is fresh, every class
    is still found and has all the properties it had, with their ids. *)
Theorem C67_register : forall m fc ft m' rows m2, base_model = Ok m -> sound_file fc ft -> read_dictionary true m fc ft = Ok m' ->
  (forall r, In r rows -> live m' (cr_name r) /\ crow_ok r) -> register_classes m' rows = Ok m2 ->
  (forall a c p b d q, class_of m2 a = Some c -> In p (props c) -> class_of m2 b = Some d -> In q (props d) -> 32768 <= p_pid p -> p_pid p = p_pid q -> a = b /\ p = q) /\
  (forall x st, next_free_pid (m_pids m2) = Ok (x, st) -> 32768 <= x -> forall a c p, class_of m2 a = Some c -> In p (props c) -> p_pid p <> x) /\
  (forall a c, class_of m' a = Some c -> exists c', class_of m2 a = Some c' /\ c_auid c' = c_auid c /\ c_name c' = c_name c /\ incl (props c) (props c')).
Proof.
  intros m fc ft m' rows m2 B F E L R. destruct (register_classes_inv _ rows m' m2 (read_inv m fc ft m' B F E) L R) as [I S]. destruct (inv_ids _ _ I) as [A1 A2]. split; [exact A1|]. split; [exact A2|apply stays_class; exact S].
Qed.
Print Assumptions C67_register.

(** ** C67: opening with the extensions *)
Lemma gen_split : forall ec ea et m' m2, (do m <- register_classes m' ec ;; do m <- register_aliases m ea ;; register_types m et) = Ok m2 ->
  exists m3 m4, register_classes m' ec = Ok m3 /\ register_aliases m3 ea = Ok m4 /\ register_types m4 et = Ok m2.
Proof.
  intros ec ea et m' m2 E. destruct (register_classes m' ec) as [m3|] eqn:E3; [|discriminate]. cbn [bind] in E. destruct (register_aliases m3 ea) as [m4|] eqn:E4; [|discriminate]. cbn [bind] in E. exists m3, m4. auto.
Qed.
Lemma ext_split : forall m' m2, with_extensions m' = Ok m2 ->
  exists m3 m4, register_classes m' ext_classes = Ok m3 /\ register_aliases m3 ext_aliases = Ok m4 /\ register_types m4 ext_types = Ok m2.
Proof. exact (fun m' => gen_split ext_classes ext_aliases ext_types m'). Qed.
Lemma gen_open : forall (b : result meta) (ext : meta -> result meta) fc ft m2, (do m <- b ;; do m <- read_dictionary true m fc ft ;; if true && true then ext m else Ok m) = Ok m2 ->
  exists m m', b = Ok m /\ read_dictionary true m fc ft = Ok m' /\ ext m' = Ok m2.
Proof. intros [m|] ext fc ft m2 E; [|discriminate]. cbn [bind] in E. destruct (read_dictionary true m fc ft) as [m'|] eqn:R; [|discriminate]. cbn [bind andb] in E. exists m, m'. auto. Qed.
Lemma open_split : forall fc ft m2, open_dictionary true true fc ft = Ok m2 -> exists m m', base_model = Ok m /\ read_dictionary true m fc ft = Ok m' /\ with_extensions m' = Ok m2.
Proof. exact (gen_open base_model with_extensions). Qed.
Lemma ext_rows : forall r, In r ext_classes -> crow_ok r.
Proof.
  assert (H : forallb (fun r => forallb (fun p => match pr_pid p with None => true | Some pid => pid <? 32768 end) (cr_props r)) ext_classes = true) by (vm_compute; reflexivity).
  intros r I p J. rewrite forallb_forall in H. apply H in I. rewrite forallb_forall in I. apply I in J. unfold row_ok. destruct (pr_pid p); [lia|exact Logic.I].
Qed.
Definition proper (m : meta) : bool := forallb (fun r => match class_named m (cr_name r) with Some c => String.eqb (c_name c) (cr_name r) | None => true end) ext_classes.
Lemma base_proper : forall m, base_model = Ok m -> forall r c, In r ext_classes -> class_named m (cr_name r) = Some c -> c_name c = cr_name r.
Proof.
  assert (H : holds base_model proper = true) by (vm_compute; reflexivity). intros m B. pose proof (holds_ok _ _ _ H B) as Q. clear B H. unfold proper in Q. rewrite forallb_forall in Q. intros r c I X. apply Q in I. rewrite X in I. apply String.eqb_eq. exact I.
Qed.
(** The file names the classes it has in common with the built-in model as that does. *)
Definition same_names (m : meta) (fc : list cdef) : Prop := forall c b, In c fc -> class_of m (c_auid c) = Some b -> c_name c = c_name b.
Lemma ext_live : forall m fc ft m', base_model = Ok m -> sound_file fc ft -> same_names m fc -> read_dictionary true m fc ft = Ok m' -> forall r, In r ext_classes -> live m' (cr_name r).
Proof.
  intros m fc ft m' B F Sn E r I h Hh. pose proof (base_start m B) as S. pose proof (reach_built_in m (or_introl B)) as Rb. pose proof (base_proper m B) as Pr. clear B.
  destruct (read_facts m fc ft m' S F E) as (_ & (O1 & O2 & _ & _ & O5 & _) & _). pose proof S as (W & _). destruct (load_one m fc ft F) as (X1 & _ & Y1 & Y2 & _). destruct (load_ok m fc ft W) as ((_ & W2 & _) & _ & _ & _ & _ & _ & _ & _ & _ & L9 & _).
  rewrite O1 in Hh. assert (G : exists c, nth_error (m_heap (load m fc ft)) h = Some c /\ zget (m_cauid (load m fc ft)) (c_auid c) = Some h).
  { destruct (in_dec string_dec (cr_name r) (map c_name fc)) as [J|J].
    - apply in_map_iff in J as (c & Ec & J). destruct (X1 c J) as (k & K1 & K2). rewrite Ec in K1. assert (k = h) as -> by congruence. destruct (W2 _ _ K2) as (d & D & Da). exists d. split; [exact D|]. rewrite Da. exact K2.
    - rewrite (Y1 _ J) in Hh. pose proof (stored_all _ Rb) as ((_ & M2 & _ & M4) & _). destruct (M2 _ _ Hh) as (b & Hb).
      assert (Nb : class_named m (cr_name r) = Some b) by (unfold class_named; rewrite Hh; exact Hb). pose proof (Pr r b I Nb) as En.
      assert (Zb : zget (m_cauid m) (c_auid b) = Some h) by (eapply M4; eauto).
      assert (Nf : ~ In (c_auid b) (map c_auid fc)).
      { intros H. apply in_map_iff in H as (c & Ec & H). apply J. apply in_map_iff. exists c. split; [|exact H]. rewrite <- En. apply Sn; [exact H|]. rewrite Ec. unfold class_of. rewrite Zb. exact Hb. }
      exists b. rewrite (Y2 _ Nf). split; [|exact Zb]. pose proof (L9 _ Nf) as Q. unfold class_of in Q. rewrite (Y2 _ Nf), Zb in Q. rewrite Q. exact Hb. }
  destruct G as (c & C & Cz). destruct (O5 _ _ C) as (c' & C' & Sc). exists c'. split; [exact C'|]. rewrite O2. replace (c_auid c') with (c_auid c); [exact Cz|]. symmetry. apply Sc.
Qed.
(** A file that names its classes so, opened for writing with the extensions (file.py:216, 221-222): ids are distinct, the next one
    is fresh, and every class of the file is found with all the properties the file has, with its ids. *)
Theorem C67_extensions : forall m fc ft m2, base_model = Ok m -> sound_file fc ft -> complete m fc ft -> same_names m fc -> open_dictionary true true fc ft = Ok m2 ->
  (forall a c p b d q, class_of m2 a = Some c -> In p (props c) -> class_of m2 b = Some d -> In q (props d) -> 32768 <= p_pid p -> p_pid p = p_pid q -> a = b /\ p = q) /\
  (forall x st, next_free_pid (m_pids m2) = Ok (x, st) -> 32768 <= x -> forall a c p, class_of m2 a = Some c -> In p (props c) -> p_pid p <> x) /\
  (forall c, In c fc -> exists c', class_of m2 (c_auid c) = Some c' /\ c_name c' = c_name c /\ incl (props c) (props c')).
Proof.
  intros m fc ft m2 B F Cm Sn E. apply open_split in E as (m0 & m' & B0 & R & E). assert (m0 = m) as -> by (rewrite B in B0; injection B0 as ->; reflexivity). clear B0.
  apply ext_split in E as (m3 & m4 & E3 & E4 & E).
  pose proof (register_aliases_same _ _ _ E4) as S4. pose proof (register_types_same _ _ _ E) as S5.
  destruct (register_classes_inv (fst (m_pids m)) ext_classes m' m3 (read_inv m fc ft m' B F R) (fun r I => conj (ext_live m fc ft m' B F Sn R r I) (ext_rows r I)) E3) as [I St].
  pose proof (same_inv _ _ _ S5 (same_inv _ _ _ S4 I)) as I2. destruct (inv_ids _ _ I2) as [A1 A2]. split; [exact A1|]. split; [exact A2|]. intros c Ic.
  destruct (C67_file true m fc ft m' B F (fun _ => Cm) R) as [Fc _]. destruct (Fc c Ic) as (c' & C' & _ & Nm & _ & _ & _ & Pc). destruct (stays_class _ _ St _ _ C') as (c2 & C2 & _ & N2 & P2).
  exists c2. split; [|split; [congruence|]].
  - destruct S4 as (S41 & S42 & _), S5 as (S51 & S52 & _). unfold class_of in *. rewrite S52, S42, S51, S41. exact C2.
  - unfold props in *. rewrite <- Pc. exact P2.
Qed.
Print Assumptions C67_extensions.

(** the hypotheses are met: the class of [C67_extensions_refuted] under its usual name *)
Definition own_edge : cdef := CDef "EdgeCode" EDGECODE SEGMENT true [(0x4d783cfa35da45669a522190d5078616, PDef "AvEdgeType" 0x4d783cfa35da45669a522190d5078616 65000 0x0101060000000000060e2b3401040101 true false)] [].
Example C67_extensions_case : exists m m2, base_model = Ok m /\ sound_file [own_edge] [] /\ complete m [own_edge] [] /\ same_names m [own_edge] /\ open_dictionary true true [own_edge] [] = Ok m2 /\
  match class_of m2 EDGECODE with Some d => List.length (c_props d) = 3%nat /\ map p_pid (firstn 1 (props d)) = [65000] | None => False end.
Proof.
  assert (H : holds (open_dictionary true true [own_edge] []) (fun m => match class_of m EDGECODE with Some d => (List.length (c_props d) =? 3)%nat && match map p_pid (firstn 1 (props d)) with [x] => x =? 65000 | _ => false end | None => false end) = true) by (vm_compute; reflexivity).
  assert (H2 : holds base_model (fun m => match class_of m EDGECODE with Some b => String.eqb "EdgeCode" (c_name b) | None => false end) = true) by (vm_compute; reflexivity).
  assert (Sf : sound_file [own_edge] []) by (apply sound_one; try reflexivity; constructor).
  assert (Cm : forall m, complete m [own_edge] []) by (intros m; apply complete_other; intros c [<-|[]]; cbn; intros Q; repeat (destruct Q as [Q|Q]; [discriminate Q|]); exact Q).
  apply base_case in H2 as (m & B & H2). apply base_case in H as (m2 & E & H). exists m, m2. split; [exact B|]. split; [exact Sf|].
  split; [apply Cm|]. clear B Cm. split; [|split; [exact E|]]; clear E.
  - intros c b [<-|[]] X. change (c_auid own_edge) with EDGECODE in X. rewrite X in H2. apply String.eqb_eq in H2. exact H2.
  - destruct (class_of m2 EDGECODE) as [d|]; [|discriminate]. apply andb_prop in H as [H1 H]. apply Nat.eqb_eq in H1. split; [exact H1|]. destruct (map p_pid (firstn 1 (props d))) as [|x [|? ?]]; try discriminate. apply Z.eqb_eq in H as ->. reflexivity.
Qed.

(** Without the extensions, or for reading, nothing is registered. *)
Lemma gen_modes : forall (b : result meta) (ext : meta -> result meta) w e fc ft m, b = Ok m -> e && w = false ->
  (do m <- b ;; do m <- read_dictionary w m fc ft ;; if e && w then ext m else Ok m) = read_dictionary w m fc ft.
Proof. intros b ext w e fc ft m -> H. cbn [bind]. rewrite H. destruct (read_dictionary w m fc ft); reflexivity. Qed.
Theorem C67_modes : forall w e fc ft m, base_model = Ok m -> e && w = false -> open_dictionary w e fc ft = read_dictionary w m fc ft.
Proof. exact (gen_modes base_model with_extensions). Qed.
Print Assumptions C67_modes.

(** The types of the extensions other than enumerations replace those of the file (metadict.py:386-396,
    353-384): a file whose AvidColor has another size gets the size of the extensions. *)
Definition own_color : tdef := TDef "AvidColor" 0x8bc427336bab11d380cf006008143e6f (KFixed 0x0101010000000000060e2b3401040101 70).
Theorem C67_types_refuted : exists fc ft m2 t, sound_file fc ft /\ (forall m, complete m fc ft) /\ (forall m, same_names m fc) /\ open_dictionary true true fc ft = Ok m2 /\ In t ft /\ type_of m2 (t_auid t) <> Some t.
Proof.
  assert (H : holds (open_dictionary true true [] [own_color]) (fun m => match type_of m (t_auid own_color) with Some t => match t_kind t with KFixed _ n => n =? 68 | _ => false end | None => false end) = true) by (vm_compute; reflexivity).
  assert (Sf : sound_file [] [own_color]) by (apply sound_none; repeat constructor; intros []).
  apply base_case in H as (m2 & E & H). exists [], [own_color], m2, own_color. split; [exact Sf|]. split; [intros m; apply complete_other; intros c []|]. split; [intros m c b []|]. split; [exact E|]. split; [left; reflexivity|]. clear E Sf.
  intros Q. rewrite Q in H. vm_compute in H. discriminate H.
Qed.
Print Assumptions C67_types_refuted.

(** A file that has a class of the extensions under another name cannot be opened with them: the class is
    looked up under the wrong key (metadict.py:414-415). *)
Definition own_tracker : cdef := CDef "Tracker" 0x13e0a981041211d49ff90004ac969f50 INTERCHANGE true [] [].
Lemma key_error : forall r : result meta, match r with Err KeyError => true | _ => false end = true -> r = Err KeyError.
Proof. intros [|[]]; try discriminate; reflexivity. Qed.
Theorem C67_renamed_refuted : exists fc ft, sound_file fc ft /\ (forall m, complete m fc ft) /\ (forall m, base_model = Ok m -> same_names m fc) /\ open_dictionary true true fc ft = Err KeyError.
Proof.
  assert (Sf : sound_file [own_tracker] []) by (apply sound_one; try reflexivity; constructor).
  assert (Cm : forall m, complete m [own_tracker] []) by (intros m; apply complete_other; intros c [<-|[]]; vm_compute; intros Q; repeat (destruct Q as [Q|Q]; [discriminate Q|]); exact Q).
  assert (H : match open_dictionary true true [own_tracker] [] with Err KeyError => true | _ => false end = true) by (vm_compute; reflexivity).
  apply key_error in H.
  assert (N : holds base_model (fun m => match class_of m (c_auid own_tracker) with Some _ => false | None => true end) = true) by (vm_compute; reflexivity).
  exists [own_tracker], []. split; [exact Sf|]. split; [exact Cm|]. split; [|exact H]. clear H Sf Cm.
  intros m B c b [<-|[]] X. pose proof (holds_ok _ _ _ N B) as Q. cbv beta in Q. rewrite X in Q. discriminate Q.
Qed.
Print Assumptions C67_renamed_refuted.
