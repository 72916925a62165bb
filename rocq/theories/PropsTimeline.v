(** C46-C51: keyframes, sequences, slot ids, mob dependencies, property ids, class hierarchy. *)
From Verif Require Import Base BaseFacts TimelineModel TimelineFacts.
From Coq Require Import ZArith QArith List Bool Lia Sorting Permutation Relations.
Import ListNotations.
Open Scope Z_scope.

(** ** C46 *)

(** On points in increasing time, the lookup finds the last point at or before the time asked for;
    before the first point it finds the first. *)
Theorem C46_lookup_partial : forall V (pts : points V) t, increasing V pts -> pts <> [] ->
  exists i p, nearest_index V pts t = Ok i /\ znth pts i = Some p /\
    (forall j q, i < j -> znth pts j = Some q -> (t < fst q)%Q) /\
    ((fst p <= t)%Q \/ (i = 0 /\ (t < fst p)%Q)).
Proof.
  intros V pts t H Hne. destruct (nearest_index_ok V pts t H) as (i & E & [(p & Hp & Hle & Hn)|[-> Hn]]).
  - exists i, p. auto.
  - destruct pts as [|p pts]; [congruence|]. assert (Hp : znth (p :: pts) 0 = Some p).
    { unfold znth. rewrite zlen_cons. pose proof (zlen_nonneg _ pts). replace ((0 <=? 0) && (0 <? 1 + zlen pts)) with true by lia. auto. }
    exists 0, p. split; auto. split; auto. split; eauto.
Qed.

(** Adding a keyframe at a time a float can hold, not before the first: the points stay increasing, and
    the new point replaces the one at the same time, if any. *)
Theorem C46_add_sorted_partial : forall V fl (pts : points V) t v, increasing V pts -> (fl t == t)%Q ->
  (forall p r, pts = p :: r -> (fst p <= t)%Q) ->
  exists pts', add_keyframe V fl pts t v = Ok pts' /\ increasing V pts' /\
    (forall x, In x pts' <-> x = (fl t, v) \/ (In x pts /\ ~ (fst x == t)%Q)).
Proof.
  intros V fl pts t v H Hf H1. unfold add_keyframe. destruct pts as [|p0 r].
  { cbn. exists [(fl t, v)]. split; auto. split; [repeat constructor|]. intros x. cbn. intuition. }
  set (pts := p0 :: r) in *. replace (0 <? zlen pts) with true by (unfold pts; rewrite zlen_cons; pose proof (zlen_nonneg _ r); lia).
  destruct (C46_lookup_partial V pts t H) as (i & p & E & Hp & Hn & Hle); [discriminate|]. rewrite E. cbn [bind]. rewrite Hp.
  assert (Hpt : (fst p <= t)%Q).
  { destruct Hle as [|[-> Hlt]]; auto. replace p with p0. apply (H1 p0 r); auto. unfold pts in Hp. unfold znth in Hp. destruct ((0 <=? 0) && (0 <? zlen (p0 :: r))); cbn in Hp; congruence. }
  clear Hle. destruct (znth_split _ _ _ _ Hp) as (a & b & Ep & La). rewrite Ep in H |- *. apply ss_app in H. destruct H as (Ha & Hb & Hab). inversion Hb as [|? ? Hb1 Hb2]; subst.
  assert (Hbt : forall y, In y b -> (t < fst y)%Q).
  { intros y Y. apply In_znth in Y. destruct Y as (j & Rj & Hj). apply (Hn (zlen a + 1 + j)); [lia|]. rewrite Ep. replace (a ++ p :: b) with ((a ++ [p]) ++ b) by (rewrite <- app_assoc; auto).
    assert (Lp : zlen (a ++ [p]) = zlen a + 1) by (rewrite zlen_app; reflexivity). rewrite znth_app2 by lia. rewrite Lp. replace (zlen a + 1 + j - (zlen a + 1)) with j by lia. auto. }
  assert (Hat : forall x, In x a -> (fst x < fst p)%Q) by (intros x X; apply (Hab x p); auto; left; auto).
  destruct (Qeq_bool (fst p) (fl t)) eqn:Q.
  - apply Qeq_bool_iff in Q. rewrite zupd_split. eexists. split; [reflexivity|]. split.
    + apply ss_app. split; auto. split.
      * constructor; auto. apply Forall_forall. intros y Y. unfold before. cbn [fst]. rewrite Hf. auto.
      * intros x y X [<-|Y]; [unfold before; cbn [fst]; rewrite <- Q; auto|]. eapply Qlt_trans; [apply Hat; auto|]. eapply Qle_lt_trans; [apply Hpt|auto].
    + intros x. rewrite !in_app_iff. cbn [In]. split.
      * intros [X|[X|X]]; auto; right; (split; [auto|]); intros Y.
        -- apply Hat in X. rewrite Q, Hf, Y in X. eapply Qlt_irrefl; eauto.
        -- apply Hbt in X. rewrite Y in X. eapply Qlt_irrefl; eauto.
      * intros [->|[[X|[X|X]] Y]]; auto. subst x. exfalso. apply Y. rewrite Q. auto.
  - assert (Qn : ~ (fst p == fl t)%Q) by (intros X; apply Qeq_bool_iff in X; congruence). assert (Hlt : (fst p < t)%Q).
    { apply Qle_lteq in Hpt. destruct Hpt as [|X]; auto. exfalso. apply Qn. rewrite Hf. auto. }
    rewrite zinsert_split. eexists. split; [reflexivity|]. split.
    + apply ss_app. split; auto. split.
      * constructor; [constructor; auto; apply Forall_forall; intros y Y; unfold before; cbn [fst]; rewrite Hf; auto|].
        constructor; auto. unfold before. cbn [fst]. rewrite Hf. auto.
      * intros x y X [<-|[<-|Y]]; [apply Hat; auto| |].
        -- unfold before. cbn [fst]. rewrite Hf. eapply Qlt_trans; [apply Hat|]; eauto.
        -- apply (Hab x y); auto. right. auto.
    + intros x. rewrite !in_app_iff. cbn [In]. split.
      * intros [X|[X|[X|X]]]; auto; right; (split; [auto|]); intros Y.
        -- apply Hat in X. rewrite Y in X. apply (Qlt_irrefl t). eapply Qlt_trans; eauto.
        -- subst x. rewrite Y in Hlt. eapply Qlt_irrefl; eauto.
        -- apply Hbt in X. rewrite Y in X. eapply Qlt_irrefl; eauto.
      * intros [->|[[X|[X|X]] Y]]; auto.
Qed.

(** Any number of keyframes, in any order, as long as none is earlier than the first one added. *)
Theorem C46_history_sorted_partial : forall V fl t0 v0 l, (forall q, (fl q == q)%Q) -> Forall (fun x => (t0 <= fst x)%Q) l ->
  exists pts, add_keyframes V fl [] ((t0, v0) :: l) = Ok pts /\ increasing V pts /\
    (forall q, (exists w, In (q, w) pts) -> exists w q', In (q', w) ((t0, v0) :: l) /\ (q == q')%Q) /\
    (forall q w, In (q, w) ((t0, v0) :: l) -> exists q' w', In (q', w') pts /\ (q == q')%Q).
Proof.
  intros V fl t0 v0 l Hf Hl. cbn [add_keyframes]. assert (E0 : add_keyframe V fl [] t0 v0 = Ok [(fl t0, v0)]) by reflexivity. rewrite E0. cbn [bind].
  assert (G : forall l pts, Forall (fun x => (t0 <= fst x)%Q) l -> increasing V pts -> pts <> [] -> (forall p, In p pts -> (t0 <= fst p)%Q) -> (exists w q, In (q, w) pts /\ (q == t0)%Q) ->
    exists pts', add_keyframes V fl pts l = Ok pts' /\ increasing V pts' /\
    (forall q, (exists w, In (q, w) pts') -> exists w q', (In (q', w) pts \/ In (q', w) l) /\ (q == q')%Q) /\
    (forall q w, In (q, w) pts \/ In (q, w) l -> exists q' w', In (q', w') pts' /\ (q == q')%Q)).
  { clear - Hf. induction l as [|[t v] l IH]; intros pts Hl Hi Hne Hge Hm.
    - exists pts. split; auto. split; auto. split.
      + intros q [w I]. exists w, q. split; [auto|reflexivity].
      + intros q w [I|[]]. exists q, w. split; [auto|reflexivity].
    - inversion Hl as [|? ? Ht Hl']; subst. cbn [fst] in Ht. destruct (C46_add_sorted_partial V fl pts t v Hi (Hf t)) as (p1 & E1 & I1 & M1).
      { intros p r ->. destruct Hm as (w & q & I & Eq). destruct I as [->|I]; [cbn; rewrite Eq; auto|]. inversion Hi as [|? ? _ F]; subst. rewrite Forall_forall in F. apply F in I. unfold before in I. cbn [fst] in I.
        apply Qlt_le_weak. eapply Qlt_le_trans; [apply I|]. rewrite Eq. auto. }
      cbn [add_keyframes]. rewrite E1. cbn [bind]. destruct (IH p1 Hl' I1) as (p2 & E2 & I2 & A & B).
      { intros ->. assert (X : In (fl t, v) []) by (apply M1; auto). destruct X. }
      { intros p P. apply M1 in P. destruct P as [->|[P _]]; auto. cbn. rewrite Hf. auto. }
      { destruct Hm as (w & q & I & Eq). destruct (Qeq_dec q t) as [Et|Nt].
        - exists v, (fl t). split; [apply M1; auto|]. rewrite Hf. rewrite <- Et. auto.
        - exists w, q. split; auto. apply M1. right. auto. }
      exists p2. split; auto. split; auto. split.
      + intros q Hq. apply A in Hq. destruct Hq as (w & q' & [I|I] & Eq).
        * apply M1 in I. destruct I as [I|[I _]].
          -- injection I as -> ->. exists v, t. split; [right; left; auto|]. rewrite Eq. auto.
          -- exists w, q'. auto.
        * exists w, q'. split; auto. right; right; auto.
      + intros q w Hq. destruct (Qeq_dec q t) as [Et|Nt].
        * destruct (B (fl t) v) as (q' & w' & I & Eq). { left. apply M1. auto. } exists q', w'. split; auto. rewrite <- Eq, Hf. auto.
        * apply (B q w). destruct Hq as [I|[I|I]]; auto.
          -- left. apply M1. right. auto.
          -- injection I as -> ->. exfalso. apply Nt. reflexivity. }
  destruct (G l [(fl t0, v0)]) as (pts & E & I & A & B); auto.
  - repeat constructor.
  - discriminate.
  - intros p [<-|[]]. cbn. rewrite Hf. apply Qle_refl.
  - exists v0, (fl t0). split; [left; auto|auto].
  - exists pts. split; auto. split; auto. split.
    + intros q Hq. apply A in Hq. destruct Hq as (w & q' & [[X|[]]|X] & Eq).
      * injection X as <- <-. exists v0, t0. split; [left; auto|]. rewrite Eq. auto.
      * exists w, q'. split; [right; auto|auto].
    + intros q w [X|X].
      * injection X as -> ->. destruct (B (fl q) w) as (q' & w' & X & Eq). { left; left; auto. } exists q', w'. split; auto. rewrite <- Eq, Hf. reflexivity.
      * apply (B q w). auto.
Qed.

(** A keyframe before the first one is always put second: the points are then out of order. *)
Theorem C46_add_before_first_refuted : forall V fl (p : Q * V) r t v, increasing V (p :: r) -> (fl t == t)%Q -> (t < fst p)%Q ->
  add_keyframe V fl (p :: r) t v = Ok (p :: (fl t, v) :: r) /\ ~ increasing V (p :: (fl t, v) :: r).
Proof.
  intros V fl p r t v H Hf Ht. split.
  - unfold add_keyframe. replace (0 <? zlen (p :: r)) with true by (rewrite zlen_cons; pose proof (zlen_nonneg _ r); lia).
    destruct (C46_lookup_partial V (p :: r) t H) as (i & q & E & Hq & Hn & Hle); [discriminate|]. rewrite E. cbn [bind].
    assert (i = 0 /\ q = p).
    { assert (Hall : forall j x, znth (p :: r) j = Some x -> (t < fst x)%Q).
      { intros j x Hx. apply znth_In in Hx. destruct Hx as [<-|Hx]; auto. inversion H as [|? ? _ F]; subst. rewrite Forall_forall in F. apply F in Hx. eapply Qlt_trans; eauto. }
      destruct Hle as [Hle|[-> _]].
      - apply Hall in Hq. exfalso. apply (Qlt_irrefl t). eapply Qlt_le_trans; eauto.
      - split; auto. unfold znth in Hq. destruct ((0 <=? 0) && (0 <? zlen (p :: r))); cbn in Hq; congruence. }
    destruct H0 as [-> ->]. rewrite Hq. destruct (Qeq_bool (fst p) (fl t)) eqn:Q.
    + apply Qeq_bool_iff in Q. exfalso. rewrite Q, Hf in Ht. eapply Qlt_irrefl; eauto.
    + f_equal. apply (zinsert_split _ [] r p (fl t, v)).
  - intros X. inversion X as [|? ? _ F]; subst. inversion F as [|? ? F1 _]; subst. unfold before in F1. cbn in F1. rewrite Hf in F1. apply (Qlt_irrefl t). eapply Qlt_trans; eauto.
Qed.

(** A time given as an exact rational that rounds up is not recognised: adding a keyframe twice at 1/10
    (whose double is 3602879701896397/36028797018963968) leaves two points at the same time. *)
Theorem C46_rounding_refuted : forall fl, (fl 0 = 0)%Q -> (fl (1 # 10) = 3602879701896397 # 36028797018963968)%Q ->
  exists pts, add_keyframes Z fl [] [(0%Q, 1); ((1 # 10)%Q, 2); ((1 # 10)%Q, 3)] = Ok pts /\ ~ increasing Z pts /\ zlen pts = 3.
Proof.
  intros fl H0 H1. exists [(0%Q, 1); ((3602879701896397 # 36028797018963968)%Q, 3); ((3602879701896397 # 36028797018963968)%Q, 2)]. split; [|split; auto].
  - cbn [add_keyframes]. unfold add_keyframe. rewrite H0, H1. vm_compute. reflexivity.
  - intros X. inversion X as [|? ? X1 _]; subst. inversion X1 as [|? ? _ F]; subst. inversion F as [|? ? F1 _]; subst. unfold before in F1. cbn in F1. eapply Qlt_irrefl; eauto.
Qed.

(** Evaluation with exact arithmetic: at a key its value; constant holds the last key; linear stays on
    the segment between the two neighbouring keys. *)
Theorem C46_value_at_partial : forall (pts : points Q) t, increasing Q pts -> pts <> [] ->
  exists p, In p pts /\ value_at false pts t = Ok (snd p) /\
    ((fst p <= t)%Q /\ (forall q, In q pts -> (fst q <= fst p)%Q \/ (t < fst q)%Q) \/ (t < fst p)%Q /\ forall q, In q pts -> (fst p <= fst q)%Q) /\
    (exists w, value_at true pts t = Ok w /\
      ((w == snd p)%Q \/ exists p2, In p2 pts /\ (fst p <= t)%Q /\ (t < fst p2)%Q /\ ((w - snd p) * (fst p2 - fst p) == (snd p2 - snd p) * (t - fst p))%Q)).
Proof.
  intros pts t H Hne. destruct (C46_lookup_partial Q pts t H Hne) as (i & p & E & Hp & Hn & Hle). exists p. split; [eapply znth_In; eauto|].
  unfold value_at. rewrite E. cbn [bind]. rewrite Hp. cbn [negb].
  assert (Eo : forall q, In q pts -> exists j, znth pts j = Some q /\ (j < i /\ (fst q < fst p)%Q \/ j = i /\ q = p \/ i < j /\ (t < fst q)%Q)).
  { intros q Hq. apply In_znth in Hq. destruct Hq as (j & _ & Hj). exists j. split; auto. destruct (Z.lt_trichotomy j i) as [L|[->|L]].
    - left. split; auto. eapply increasing_nth; eauto.
    - right; left. split; auto. congruence.
    - right; right. split; auto. eapply Hn; eauto. }
  split; [destruct (negb (Qle_bool (fst p) t) || (zlen pts <=? i + 1)); auto|]. split.
  { destruct Hle as [Hle|[-> Hlt]].
    - left. split; auto. intros q Hq. apply Eo in Hq. destruct Hq as (j & Hj & [[_ X]|[[_ ->]|[_ X]]]); auto; left; [apply Qlt_le_weak; auto|apply Qle_refl].
    - right. split; auto. intros q Hq. apply Eo in Hq. destruct Hq as (j & Hj & [[L X]|[[_ ->]|[L X]]]); [apply znth_Some in Hj; lia|apply Qle_refl|]. apply Qlt_le_weak. eapply (increasing_nth Q pts 0 j); eauto. }
  destruct (negb (Qle_bool (fst p) t) || (zlen pts <=? i + 1)) eqn:C.
  - exists (snd p). split; auto. left. reflexivity.
  - apply orb_false_iff in C. destruct C as [C1 C2]. apply negb_false_iff, Qle_bool_iff in C1. assert (Ri : 0 <= i < zlen pts) by (eapply znth_Some; eauto).
    destruct (znth_in_range _ pts (i + 1)) as [p2 Hp2]; [lia|]. rewrite Hp2. assert (L : (t < fst p2)%Q) by (eapply Hn; [|eauto]; lia).
    assert (Lp : (fst p < fst p2)%Q) by (eapply Qle_lt_trans; eauto). assert (NZ : ~ (fst p2 - fst p == 0)%Q).
    { intros X. apply (Qlt_irrefl (fst p2)). assert (Y : (fst p2 == fst p)%Q) by (rewrite <- (Qplus_0_l (fst p)), <- X; ring). rewrite Y at 1. auto. }
    destruct (Qeq_bool (fst p2 - fst p) 0) eqn:Z0; [apply Qeq_bool_iff in Z0; tauto|]. eexists. split; [reflexivity|]. right. exists p2. split; [eapply znth_In; eauto|]. split; auto. split; auto.
    unfold lerp. field. auto.
Qed.

(** ** C47 *)

(** Positions are the running sums; a transition starts its own length before. *)
Theorem C47_positions_partial : forall cs k c, nth_error cs k = Some c ->
  nth_error (positions cs) k = Some (Z.of_nat k, total (firstn k cs) - (if fst c then snd c else 0), c).
Proof.
  intros cs k c H. unfold positions. rewrite positions_from_spec. assert (L : (k < List.length cs)%nat) by (apply nth_error_Some; congruence).
  rewrite nth_error_map. rewrite (nth_error_nth' _ 0%nat) by (rewrite seq_length; auto). rewrite seq_nth by auto. cbn [option_map Nat.add]. rewrite (nth_error_nth cs k (false, 0) H). unfold pos_after. f_equal.
Qed.
Theorem C47_positions_count_partial : forall cs, List.length (positions cs) = List.length cs.
Proof. intros cs. unfold positions. rewrite positions_from_spec, map_length, seq_length. auto. Qed.

(** The length of a timeline slot with a sequence is where the last component ends. *)
Theorem C47_slot_length_partial : forall cs, slot_length (SSequence cs) = total cs.
Proof. intros cs. cbn. rewrite slot_length_loop_ok. lia. Qed.
(** A nested scope always has length 0: the maximum is computed and dropped. *)
Theorem C47_nested_length_refuted : exists slots, slots <> [] /\ Forall (fun s => slot_length s = 10) slots /\ slot_length (SNested slots) = 0.
Proof. exists [SOther 10; SOther 10]. split; [discriminate|]. split; auto. Qed.

(** The component found for a time covers it: for segments the interval is open on the left. *)
Theorem C47_index_partial : forall cs t, sequence_ok None cs -> 0 < t <= total cs ->
  exists i pos c, index_at_time cs t = Some i /\ at_pos cs i pos c /\ covers t pos c.
Proof.
  intros cs t Hs Ht. unfold index_at_time. replace (t <=? 0) with false by lia. unfold positions. destruct cs as [|[tr n] cs]; [cbn in Ht; lia|].
  cbn [sequence_ok] in Hs. destruct Hs as (Hn & Htr & Hs). destruct tr; [destruct (Htr eq_refl) as (? & X & _); discriminate|].
  destruct (index_loop_ok t cs [] (false, n) ((false, n) :: cs)) as (i & pos & c & E & A & C); auto; try apply Ht; try discriminate.
  exists i, pos, c. split; [|auto]. change (index_loop t (Some 0) (positions_from 1 n cs) = Some i). replace (positions_from 1 n cs) with (positions_from 1 (n + 0) cs) by (f_equal; lia). exact E.
Qed.
(** Without transitions that is the only component it can be. *)
Theorem C47_index_unique_partial : forall cs t i pos c, Forall (fun c : component => fst c = false /\ 0 <= snd c) cs -> 0 < t ->
  at_pos cs i pos c -> covers t pos c -> index_at_time cs t = Some i.
Proof.
  intros cs t i pos c F Ht (a & b & -> & <- & ->) C.
  assert (Hs : forall l prev, Forall (fun c : component => fst c = false /\ 0 <= snd c) l -> sequence_ok prev l).
  { induction l as [|[tr n] l IH]; intros prev Fl; cbn; auto. inversion Fl as [|? ? [X Y] Fl']; subst. cbn in X, Y. subst. split; auto. split; [discriminate|auto]. }
  assert (Hm : forall l, Forall (fun c : component => fst c = false /\ 0 <= snd c) l -> 0 <= total l).
  { induction l as [|[tr n] l IH]; intros Fl; cbn; [lia|]. inversion Fl as [|? ? [X Y] Fl']; subst. cbn in X, Y. subst. fold (total l). specialize (IH Fl'). unfold signed. cbn. lia. }
  pose proof F as F0. apply Forall_app in F0. destruct F0 as [Fa Fb]. inversion Fb as [|? ? [Hc Hc'] Fb']; subst.
  unfold covers, pos_after in C. rewrite Hc in C.
  destruct (C47_index_partial (a ++ c :: b) t (Hs _ None F)) as (i & pos & c' & E & (a' & b' & Eq & <- & ->) & C').
  { rewrite total_app. change (total (c :: b)) with (signed c + total b). unfold signed. rewrite Hc. specialize (Hm b Fb'). lia. }
  rewrite E. f_equal. assert (Hc2 : fst c' = false /\ 0 <= snd c') by (rewrite Forall_forall in F; apply F; rewrite Eq; apply in_or_app; right; left; auto).
  destruct Hc2 as [Hc2 _]. unfold covers, pos_after in C'. rewrite Hc2 in C'.
  assert (G : forall (x y : list component) (cx cy : component) (ex ey : list component), x ++ cx :: ex = y ++ cy :: ey -> zlen x < zlen y -> Forall (fun c : component => fst c = false /\ 0 <= snd c) (x ++ cx :: ex) -> total x + snd cx <= total y).
  { clear - Hm. intros x y cx cy ex ey Eq L Fx. assert (exists z, y = x ++ cx :: z).
    { revert y Eq L. induction x as [|h x IH]; intros y Eq L.
      - destruct y as [|h y]; [rewrite zlen_nil in L; cbn in L; lia|]. cbn in Eq. injection Eq as -> _. exists y. auto.
      - destruct y as [|h' y]; [rewrite zlen_nil in L; pose proof (zlen_nonneg _ (h :: x)); lia|]. cbn in Eq. injection Eq as -> Eq. rewrite !zlen_cons in L. inversion Fx; subst.
        destruct (IH H2 y Eq) as [z ->]; [lia|]. exists z. auto. }
    destruct H as [z ->]. rewrite total_app. change (total (cx :: z)) with (signed cx + total z). rewrite Eq in Fx. rewrite <- app_assoc in Fx. apply Forall_app in Fx. destruct Fx as [_ Fx]. cbn [app] in Fx.
    inversion Fx as [|? ? [X Y] Fz]; subst. apply Forall_app in Fz. destruct Fz as [Fz _]. specialize (Hm z Fz). unfold signed. rewrite X. lia. }
  destruct (Z.lt_trichotomy (zlen a') (zlen a)) as [L|[L|L]]; auto.
  - assert (X : total a' + snd c' <= total a) by (apply (G a' a c' c b' b); auto; rewrite <- Eq; exact F). lia.
  - assert (X : total a + snd c <= total a') by (apply (G a a' c c' b b'); auto). lia.
Qed.
(** positions never decrease *)
Lemma pos_mono : forall (T : component) b l d prev, sequence_ok prev (l ++ T :: b) ->
  forall e r, l = e :: r \/ (l = [] /\ e = T) -> pos_after d e <= pos_after (d ++ l) T.
Proof.
  intros T b. induction l as [|c l IH]; intros d prev Hs e r He.
  - destruct He as [He|[_ ->]]; [discriminate|]. rewrite app_nil_r. lia.
  - destruct He as [He|[He _]]; [|discriminate]. injection He as <- <-. destruct c as [tr k] eqn:Ec. cbn [app sequence_ok] in Hs. destruct Hs as (Hk & Htr & Hs). rewrite <- Ec in *.
    assert (St : forall e' r', l ++ T :: b = e' :: r' -> pos_after d c <= pos_after (d ++ [c]) e').
    { intros e' r' He'. unfold pos_after. rewrite total_app. change (total [c]) with (signed c + 0). rewrite He' in Hs. destruct e' as [tr' k']. cbn [sequence_ok] in Hs. destruct Hs as (P2 & P1 & _).
      unfold signed. cbn [fst snd]. destruct tr'.
      - destruct (P1 eq_refl) as (m & X & Y). injection X as X. rewrite X. cbn. lia.
      - rewrite Ec. cbn. destruct tr; lia. }
    destruct l as [|e1 l1].
    + apply (St T b). auto.
    + assert (X := IH (d ++ [c]) (Some c) Hs e1 l1 (or_introl eq_refl)). rewrite <- app_assoc in X. specialize (St e1 (l1 ++ T :: b) eq_refl). cbn [app] in X. lia.
Qed.
Lemma find_trans : forall (T : component) b t a done prev, fst T = true -> sequence_ok prev (a ++ T :: b) ->
  pos_after (done ++ a) T < t < pos_after (done ++ a) T + snd T ->
  forall last, exists j pos' c, index_loop t last (positions_from (zlen done) (total done) (a ++ T :: b)) = Some j /\ at_pos (done ++ a ++ T :: b) j pos' c /\ fst c = true /\ pos' <= t < pos' + snd c.
Proof.
  intros T b t. induction a as [|c a IH]; intros done prev HT Hs Hp last.
  - rewrite app_nil_r in Hp. unfold pos_after in Hp. destruct T as [tr n]. cbn [fst snd] in *. subst tr. cbn [app positions_from index_loop].
    replace (true && ((total done - n <=? t) && (t <? total done - n + n))) with true by (cbn; lia).
    exists (zlen done), (total done - n), (true, n). split; auto. split; [exists done, b; auto|]. split; auto. cbn. lia.
  - assert (Mc : pos_after done c < t) by (assert (X := pos_mono T b (c :: a) done prev Hs c a (or_introl eq_refl)); lia).
    cbn [app] in *. assert (E : positions_from (zlen done) (total done) (c :: a ++ T :: b) = (zlen done, pos_after done c, c) :: positions_from (zlen (done ++ [c])) (total (done ++ [c])) (a ++ T :: b)).
    { rewrite zlen_app, total_app. change (total [c]) with (signed c + 0). change (zlen [c]) with 1. unfold pos_after, signed. destruct c as [tr k]. destruct tr; cbn [positions_from fst snd].
      - rewrite Z.add_0_r. reflexivity.
      - rewrite Z.add_0_r, Z.sub_0_r. reflexivity. }
    rewrite E. destruct c as [tr k] eqn:Ec. cbn [index_loop sequence_ok] in *. rewrite <- Ec in *. destruct Hs as (Hk & Htr & Hs). destruct (tr && ((pos_after done c <=? t) && (t <? pos_after done c + k))) eqn:C.
    + exists (zlen done), (pos_after done c), c. split; auto. split; [exists done, (a ++ T :: b); auto|]. rewrite Ec in *. destruct tr; [|discriminate]. cbn in *. split; auto. lia.
    + assert (IH' := fun last => IH (done ++ [c]) (Some c) HT Hs ltac:(rewrite <- app_assoc; exact Hp) last). rewrite <- app_assoc in IH'. cbn [app] in IH'.
      destruct last as [i|]; [|apply IH']. destruct (Z.leb_spec t (pos_after done c)); [lia|apply IH'].
Qed.
(** A time strictly inside a transition finds a transition. *)
Theorem C47_index_transition_partial : forall cs t i pos c, sequence_ok None cs -> 0 < t -> at_pos cs i pos c -> fst c = true -> pos < t < pos + snd c ->
  exists j pos' c', index_at_time cs t = Some j /\ at_pos cs j pos' c' /\ fst c' = true /\ pos' <= t < pos' + snd c'.
Proof.
  intros cs t i pos c Hs Ht (a & b & -> & <- & ->) Hc Hp. unfold index_at_time. replace (t <=? 0) with false by lia. unfold positions.
  exact (find_trans c b t a [] None Hc Hs Hp None).
Qed.

(** Before the start the first, past the end the last. *)
Theorem C47_index_outside_partial : forall cs t, (t <= 0 -> index_at_time cs t = Some 0) /\ (0 < t -> index_at_time [] t = None).
Proof. intros cs t. split; intros H; unfold index_at_time. - replace (t <=? 0) with true by lia. auto. - replace (t <=? 0) with false by lia. auto. Qed.

(** At a cut the component ending there is returned, not the one starting there. *)
Theorem C47_boundary_refuted : exists cs t pos c, sequence_ok None cs /\ at_pos cs 1 pos c /\ fst c = false /\ pos <= t < pos + snd c /\ index_at_time cs t = Some 0.
Proof. exists [(false, 5); (false, 5)], 5, 5, (false, 5). cbn. repeat split; try lia; try discriminate. exists [(false, 5)], []. auto. Qed.

(** ** C48 *)

(** The id chosen is always the number of slots plus one (plus zero if the smallest id is 0). *)
Theorem C48_chosen_partial : forall ids, exists start, (start = 0 \/ start = 1) /\ (start = 0 <-> In 0 ids /\ Forall (fun i => 0 <= i) ids) /\
  create_timeline_slot ids None = Ok (Some (start + zlen ids), ids ++ [start + zlen ids]).
Proof.
  intros ids. unfold create_timeline_slot. rewrite pick_loop_last. pose proof (sort_ids_perm ids) as P. pose proof (sort_ids_sorted ids) as S.
  assert (L : zlen (sort_ids ids) = zlen ids) by (unfold zlen; f_equal; apply Permutation_length; auto). rewrite L.
  eexists. split; [|split; [|reflexivity]].
  - destruct (sort_ids ids) as [|x l]; auto. destruct (x =? 0); auto.
  - assert (I : (In 0 ids /\ Forall (fun i => 0 <= i) ids) <-> (In 0 (sort_ids ids) /\ Forall (fun i => 0 <= i) (sort_ids ids))).
    { split; intros [A B]; split.
      - eapply Permutation_in; [apply Permutation_sym; apply P|auto].
      - eapply Permutation_Forall; [apply Permutation_sym; apply P|auto].
      - eapply Permutation_in; eauto.
      - eapply Permutation_Forall; eauto. }
    rewrite I. destruct (sort_ids ids) as [|x l].
    + split; [discriminate|intros [[] _]].
    + inversion S as [|? ? _ F]; subst. destruct (Z.eqb_spec x 0) as [->|].
      * split; auto. intros _. split; [left; auto|]. constructor; [lia|]. auto.
      * split; [discriminate|]. intros [[->|I0] Fn]; [congruence|]. rewrite Forall_forall in F. apply F in I0. inversion Fn; subst. lia.
Qed.
(** So it is unused exactly when that number is. *)
Theorem C48_fresh_iff_partial : forall ids i ids', create_timeline_slot ids None = Ok (Some i, ids') -> (NoDup ids' <-> NoDup ids /\ ~ In i ids).
Proof.
  intros ids i ids' H. destruct (C48_chosen_partial ids) as (s & _ & _ & E). rewrite E in H. injection H as <- <-. rewrite NoDup_app_iff. split.
  - intros (A & _ & B). split; auto. intros I. apply (B _ I). left; auto.
  - intros (A & B). split; auto. split; [repeat constructor; intros []|]. intros x X [<-|[]]. auto.
Qed.
Theorem C48_refuted : exists ids i ids', NoDup ids /\ create_timeline_slot ids None = Ok (Some i, ids') /\ In i ids.
Proof. exists [2], 2, [2; 2]. split; [repeat constructor; intros []|]. split; [reflexivity|left; auto]. Qed.
(** A mob whose slots are all numbered automatically has the ids 1, 2, ... *)
Fixpoint automatic (n : nat) : result (list Z) := match n with O => Ok [] | S k => do ids <- automatic k ;; do x <- create_timeline_slot ids None ;; Ok (snd x) end.
Theorem C48_automatic_partial : forall n, automatic n = Ok (zseq 1 (Z.of_nat n)) /\ NoDup (zseq 1 (Z.of_nat n)).
Proof.
  induction n as [|n [IH N]]; [split; [reflexivity|constructor]|]. cbn [automatic]. rewrite IH. cbn [bind]. destruct (C48_chosen_partial (zseq 1 (Z.of_nat n))) as (s & Hs & Hz & E). rewrite E. cbn [bind snd].
  assert (s = 1).
  { destruct Hs as [->| ->]; auto. destruct Hz as [Hz _]. destruct (Hz eq_refl) as [I _]. apply In_zseq in I. lia. }
  subst s. assert (Lz : zlen (zseq 1 (Z.of_nat n)) = Z.of_nat n) by (apply zlen_zseq; lia). rewrite Lz.
  assert (Eq : zseq 1 (Z.of_nat n) ++ [1 + Z.of_nat n] = zseq 1 (Z.of_nat (S n))) by (replace (Z.of_nat (S n)) with (Z.of_nat n + 1) by lia; rewrite zseq_snoc by lia; auto).
  rewrite Eq. split; auto. rewrite <- Eq. apply NoDup_app_iff. split; auto. split; [repeat constructor; intros []|]. intros x X [<-|[]]. apply In_zseq in X. lia.
Qed.
(** A given id is refused exactly when in use. *)
Theorem C48_explicit_partial : forall ids i, (In i ids -> create_timeline_slot ids (Some i) = Err ValueError) /\ (~ In i ids -> create_timeline_slot ids (Some i) = Ok (Some i, ids ++ [i])).
Proof.
  intros ids i. unfold create_timeline_slot. assert (H : existsb (Z.eqb i) (sort_ids ids) = true <-> In i ids).
  { rewrite (seen_In (sort_ids ids) i). split; apply Permutation_in; [|apply Permutation_sym]; apply sort_ids_perm. }
  split; intros I.
  - rewrite (proj2 H I). auto.
  - destruct (existsb (Z.eqb i) (sort_ids ids)) eqn:E; [tauto|auto].
Qed.
(** and with distinct ids each slot is found by its own. *)
Theorem C48_slot_at_partial : forall A (slots : list (Z * A)) i s, NoDup (map fst slots) -> (slot_at slots i = Ok s <-> In (i, s) slots).
Proof.
  intros A slots i s N. induction slots as [|[j t] slots IH]; cbn [slot_at]; [split; [discriminate|intros []]|]. cbn in N. inversion N as [|? ? N1 N2]; subst. destruct (Z.eqb_spec j i) as [->|Hne].
  - split.
    + intros E. injection E as ->. left; auto.
    + intros [E|I]; [injection E as ->; auto|]. exfalso. apply N1. apply in_map_iff. exists (i, s). auto.
  - rewrite (IH N2). split; [right; auto|]. intros [E|I]; [congruence|auto].
Qed.

(** ** C49 *)

(** The traversal ends exactly when no chain of references from the mob goes on for ever ... *)
Theorem C49_terminates_iff_partial : forall refs self, (exists fuel out, dependant_mobs refs fuel self = Ok out) <-> Acc (below refs) self.
Proof.
  intros refs self. split.
  - intros (fuel & out & E). change (deps_loop refs fuel self [self] [] (yields self []) = Ok out) in E. apply loop_partial in E; [|exact I|constructor].
    destruct E as (new & _ & T & _ & In). eapply topo_acc; [apply T|]. apply In. left; auto.
  - intros H. destruct (done_all refs self self H [] [] I (NoDup_nil _)) as (k & new & E & _). exists k, (yields self (new ++ [])). specialize (E 0%nat). rewrite Nat.add_0_r in E.
    unfold dependant_mobs. change (@nil Z) with (yields self []) at 3. rewrite E. reflexivity.
Qed.
(** ... and then reports exactly the mobs reachable, each once, after those it refers to. *)
Theorem C49_dependencies_partial : forall refs self fuel out, dependant_mobs refs fuel self = Ok out ->
  NoDup out /\ (forall m, In m out <-> m <> self /\ reaches refs self m) /\
  (forall a m b c, out = a ++ m :: b -> In c (refs m) -> In c a).
Proof.
  intros refs self fuel out E. assert (HA : Acc (below refs) self) by (apply C49_terminates_iff_partial; eauto).
  destruct (done_all refs self self HA [] [] I (NoDup_nil _)) as (k & new & E1 & T & N & Is & R). rewrite app_nil_r in *.
  assert (out = yields self new).
  { assert (Mono : forall f st vis o x, deps_loop refs f self st vis o = Ok x -> forall g, deps_loop refs (f + g) self st vis o = Ok x).
    { induction f as [|f IH]; intros [|m st] vis o x X g; cbn [deps_loop Nat.add] in *; try discriminate; auto; [destruct g; auto|].
      destruct (filter _ (refs m)); [destruct (seen vis m)|]; apply IH; auto. }
    specialize (E1 fuel). apply (Mono _ _ _ _ _) with (g := k) in E. rewrite Nat.add_comm in E. assert (E2 := eq_trans (eq_sym E1) E). destruct fuel; cbn in E2; congruence. }
  subst out. split; [|split].
  - unfold yields. apply NoDup_filter. apply NoDup_rev. auto.
  - intros m. unfold yields. rewrite filter_In, <- in_rev. split.
    + intros [I1 X]. split; [intros ->; rewrite Z.eqb_refl in X; discriminate|auto].
    + intros [Hne X]. split; [eapply topo_closed; eauto|]. destruct (Z.eqb_spec m self); auto.
  - intros a m b c Eq C. unfold yields in Eq.
    assert (exists p q, rev new = p ++ m :: q /\ a = filter (fun x => negb (x =? self)) p) as (p & q & Ep & ->).
    { clear - Eq. revert a Eq. generalize (rev new). induction l as [|h l IH]; intros a Eq; cbn in Eq; [destruct a; discriminate|]. destruct (negb (h =? self)) eqn:Hh.
      - destruct a as [|h' a]; injection Eq as -> Eq; [exists [], l; auto|]. destruct (IH a Eq) as (p & q & -> & ->). exists (h' :: p), q. split; auto. cbn. rewrite Hh. auto.
      - destruct (IH a Eq) as (p & q & -> & ->). exists (h :: p), q. split; auto. cbn. rewrite Hh. auto. }
    assert (En : new = rev q ++ m :: rev p) by (rewrite <- (rev_involutive new), Ep, rev_app_distr; cbn; rewrite <- app_assoc; auto).
    rewrite En in T. assert (Cp := topo_order refs _ _ _ c T C). apply in_rev in Cp. apply filter_In. split; auto.
    (* self is not below anything it reaches *)
    destruct (Z.eqb_spec c self) as [->|]; auto. exfalso.
    assert (Rm : reaches refs self m) by (apply R; rewrite En; apply in_or_app; right; left; auto).
    clear - HA Rm C. assert (Rs : exists d, In d (refs self) /\ reaches refs d self).
    { assert (Gm : forall x y, reaches refs x y -> In self (refs y) -> exists d, In d (refs x) /\ reaches refs d self).
      { intros x y X. induction X as [x|x d y Hd X IH]; intros Hs; [exists self; split; auto; constructor|]. destruct (IH Hs) as (d' & Hd' & Y). exists d. split; auto. eapply reach_step; eauto. }
      eapply Gm; eauto. }
    destruct Rs as (d & Hd & Rd). assert (G : forall x, Acc (below refs) x -> forall d, In d (refs x) -> reaches refs d x -> False).
    { clear. intros x HA. induction HA as [x _ IH]. intros d Hd Rd. apply (IH d Hd d). 2: { constructor. }
      destruct Rd as [m|m n k Hn Rn]; [auto|].
      (* d -> n ->* x -> d *)
      exfalso. assert (Gm : forall u v, reaches refs u v -> In m (refs v) -> exists e, In e (refs u) /\ reaches refs e m).
      { intros u v X. induction X as [u|u e v He X IHx]; intros Hs; [exists m; split; auto; constructor|]. destruct (IHx Hs) as (e' & He' & Y). exists e. split; auto. eapply reach_step; eauto. }
      eapply (IH m Hd n Hn). destruct (Gm n k Rn Hd) as (e & He & Re). eapply reach_step; eauto. }
    eapply G; eauto.
Qed.
(** A cycle of references (even a mob referring to itself) makes it run for ever. *)
Theorem C49_cycle_refuted : forall refs self m n, reaches refs self m -> In n (refs m) -> reaches refs n m ->
  forall fuel, dependant_mobs refs fuel self = Err OutOfFuel.
Proof.
  intros refs self m n R C Rn fuel. destruct (dependant_mobs refs fuel self) as [out|e] eqn:E.
  - exfalso. assert (HA : Acc (below refs) self) by (apply C49_terminates_iff_partial; eauto). assert (HAm : Acc (below refs) m).
    { clear - HA R. induction R as [|x y z Hy R IH]; auto. apply IH. destruct HA as [HA]. apply HA. auto. }
    clear - HAm C Rn. revert n C Rn. induction HAm as [m _ IH]. intros n C Rn. destruct Rn as [x|x y z Hy Ry]; [apply (IH x C x C); constructor|].
    eapply (IH x C y Hy). assert (Gm : forall u v, reaches refs u v -> In x (refs v) -> reaches refs u x).
    { intros u v X. induction X as [u|u e v He X IHx]; intros Hs; [eapply reach_step; eauto; constructor|]. eapply reach_step; eauto. }
    eapply Gm; eauto.
  - f_equal. revert E. unfold dependant_mobs. assert (G : forall f st vis o, deps_loop refs f self st vis o = Err e -> e = OutOfFuel).
    { clear. induction f as [|f IH]; intros [|h st] vis o E; cbn [deps_loop] in E; try discriminate; [congruence|].
      destruct (filter _ (refs h)); [destruct (seen vis h)|]; eapply IH; eauto. }
    apply G.
Qed.

(** ** C50 *)

Theorem C50_fresh_partial : forall next used, 32768 <= next ->
  (exists r, next_free_pid (next, used) = Ok (r, (r - 1, r :: used)) /\ 32768 <= r <= next /\ ~ In r used) \/
  (next_free_pid (next, used) = Err ValueError /\ forall x, 32768 <= x <= next -> In x used).
Proof.
  intros next used H. unfold next_free_pid. destruct (pid_loop_ok (S (Z.to_nat (next - 32768))) next used H) as [(r & E & Hr & Hn & _)|[E Hx]]; [lia| |]; rewrite E; cbn [bind].
  - left. exists r. auto.
  - right. auto.
Qed.

(** Registrations with dynamic (None) and fixed ids, as register_classdef does them. *)
Inductive pid_op := Alloc | Claim (pid : Z).
Fixpoint pid_run (st : Z * list Z) (ops : list pid_op) : result (list Z * (Z * list Z)) :=
  match ops with
  | [] => Ok ([], st)
  | Alloc :: r => do x <- next_free_pid st ;; do y <- pid_run (snd x) r ;; Ok (fst x :: fst y, snd y)
  | Claim p :: r => do s <- claim_pid st p ;; do y <- pid_run s r ;; Ok (p :: fst y, snd y)
  end.

Lemma pid_run_inv : forall ops next used out st', 65535 - zlen used <= next <= 65535 -> zlen used + zlen ops <= 32768 -> NoDup used ->
  (forall x, next < x <= 65535 -> In x used) -> Forall (fun x => 32768 <= x) used ->
  pid_run (next, used) ops = Ok (out, st') ->
  exists new, snd st' = new ++ used /\ NoDup (new ++ used) /\ (forall x, In x new <-> In x out /\ 32768 <= x) /\ Permutation new (filter (fun x => 32768 <=? x) out) /\
    65535 - zlen (snd st') <= fst st' <= 65535 /\ (forall x, fst st' < x <= 65535 -> In x (snd st')).
Proof.
  induction ops as [|op ops IH]; intros next used out st' Hb Hl N Ha F E.
  - injection E as <- <-. exists []. cbn. repeat split; auto; try tauto; lia.
  - rewrite zlen_cons in Hl. pose proof (zlen_nonneg _ ops). pose proof (zlen_nonneg _ used). destruct op as [|p]; cbn [pid_run] in E.
    + unfold next_free_pid in E. assert (Hn : 32768 <= next) by lia.
      destruct (pid_loop_ok (S (Z.to_nat (next - 32768))) next used Hn) as [(r & Er & Hr & Hnr & Hx)|[Er Hx]]; [lia| |]; rewrite Er in E; [|discriminate]. cbn [bind snd fst] in E.
      destruct (pid_run (r - 1, r :: used) ops) as [[out1 st1]|] eqn:E1; [|discriminate]. cbn [bind fst snd] in E. injection E as <- <-.
      assert (Ha' : forall x, r - 1 < x <= 65535 -> In x (r :: used)).
      { intros x X. destruct (Z.eq_dec x r) as [->|]; [left; auto|]. right. destruct (Z_le_dec x next); [apply Hx; lia|apply Ha; lia]. }
      assert (Hb' : 65535 - zlen (r :: used) <= r - 1 <= 65535).
      { split; [|lia]. assert (incl (zseq r (65535 - r + 1)) (r :: used)) by (intros x X; apply In_zseq in X; apply Ha'; lia).
        apply NoDup_incl_length in H1; [|apply NoDup_zseq]. pose proof (zlen_zseq r (65535 - r + 1)). unfold zlen in *. lia. }
      apply IH in E1; auto.
      * destruct E1 as (new & Eq & N2 & M2 & P2 & B2 & C2). exists (new ++ [r]). rewrite <- app_assoc. cbn [app]. split; auto. split; auto. split.
        { intros x. rewrite in_app_iff. cbn [In]. rewrite M2. intuition; subst; auto; lia. }
        split; auto. cbn [filter]. replace (32768 <=? r) with true by lia. eapply perm_trans; [apply Permutation_app_comm|]. cbn. auto.
      * rewrite zlen_cons. lia.
      * constructor; auto.
      * constructor; auto. lia.
    + cbn [claim_pid] in E. destruct (Z.leb_spec 32768 p).
      * destruct (existsb (Z.eqb p) used) eqn:Ep; [discriminate|]. cbn [negb bind] in E. assert (Hp : ~ In p used) by (intros X; apply (seen_In used p) in X; unfold seen in X; congruence).
        destruct (pid_run (next, p :: used) ops) as [[out1 st1]|] eqn:E1; [|discriminate]. cbn [bind fst snd] in E. injection E as <- <-. apply IH in E1; auto.
        -- destruct E1 as (new & Eq & N2 & M2 & P2 & B2 & C2). exists (new ++ [p]). rewrite <- app_assoc. cbn [app]. split; auto. split; auto. split.
           { intros x. rewrite in_app_iff. cbn [In]. rewrite M2. intuition; subst; auto; lia. }
           split; auto. cbn [filter]. replace (32768 <=? p) with true by lia. eapply perm_trans; [apply Permutation_app_comm|]. cbn. auto.
        -- rewrite zlen_cons. lia.
        -- rewrite zlen_cons. lia.
        -- constructor; auto.
        -- intros x X. right. auto.
      * cbn [bind] in E. destruct (pid_run (next, used) ops) as [[out1 st1]|] eqn:E1; [|discriminate]. cbn [bind fst snd] in E. injection E as <- <-. apply IH in E1; auto; [|lia].
        destruct E1 as (new & Eq & N2 & M2 & P2 & B2 & C2). exists new. split; auto. split; auto. split; [|split; auto].
        -- intros x. rewrite M2. cbn. intuition. subst. lia.
        -- cbn [filter]. replace (32768 <=? p) with false by lia. auto.
Qed.

(** In any history of at most 32767 registrations all dynamic ids are distinct, and the next allocation
    gives an unused id of the dynamic range. *)
Theorem C50_history_partial : forall ops out st, zlen ops <= 32767 -> pid_run (65535, []) ops = Ok (out, st) ->
  NoDup (filter (fun x => 32768 <=? x) out) /\
  exists r st', next_free_pid st = Ok (r, st') /\ 32768 <= r <= 65535 /\ ~ In r out.
Proof.
  intros ops out st Hl E. assert (E0 := E). apply pid_run_inv in E; [|rewrite zlen_nil; lia|rewrite zlen_nil; lia|constructor|intros; lia|constructor].
  destruct E as (new & Eq & N & M & P & B & C). rewrite app_nil_r in *. split; [eapply Permutation_NoDup; eauto|]. destruct st as [next used]. cbn [fst snd] in *. subst used.
  assert (Lo : forall ops st out st', pid_run st ops = Ok (out, st') -> zlen out = zlen ops).
  { clear. induction ops as [|op ops IH]; intros st out st' E; [injection E as <- <-; auto|]. destruct op; cbn [pid_run] in E.
    - destruct (next_free_pid st) as [x|]; [|discriminate]. cbn [bind] in E. destruct (pid_run (snd x) ops) as [[o s]|] eqn:E1; [|discriminate]. injection E as <- <-. rewrite !zlen_cons. cbn [fst]. f_equal. eapply IH; eauto.
    - destruct (claim_pid st pid) as [x|]; [|discriminate]. cbn [bind] in E. destruct (pid_run x ops) as [[o s]|] eqn:E1; [|discriminate]. injection E as <- <-. rewrite !zlen_cons. cbn [fst]. f_equal. eapply IH; eauto. }
  apply Lo in E0. assert (Ln : zlen new <= zlen out).
  { apply Permutation_length in P. unfold zlen. rewrite P. clear. induction out; cbn; [lia|]. destruct (32768 <=? a); cbn; lia. }
  assert (Hn : 32768 <= next) by lia. destruct (C50_fresh_partial next new Hn) as [(r & Er & Hr & Hnr)|[Er Hx]].
  - exists r, (r - 1, r :: new). split; auto. split; [lia|]. intros I. apply Hnr. apply M. split; auto. lia.
  - exfalso. assert (incl (zseq 32768 32768) new).
    { intros x X. apply In_zseq in X. destruct (Z_le_dec x next); [apply Hx; lia|apply C; lia]. }
    apply NoDup_incl_length in H; [|apply NoDup_zseq]. pose proof (zlen_zseq 32768 32768). unfold zlen in *. lia.
Qed.

(** Once 0x8000 itself has been allocated, ids outside the dynamic range are handed out. *)
Lemma next_free_unused : forall next used, existsb (Z.eqb next) used = false -> next_free_pid (next, used) = Ok (next, (next - 1, next :: used)).
Proof.
  intros next used H. unfold next_free_pid. generalize (S (Z.to_nat (next - 32768))) as fuel. intros fuel. replace (pid_loop fuel next used) with (@Ok Z next); auto.
  destruct fuel; cbn [pid_loop]; rewrite H; auto.
Qed.
Definition taken (k : Z) : list Z := rev (map (fun i => 65535 - i) (zseq 0 k)).
Lemma taken_snoc : forall k, 0 <= k -> (65535 - k) :: taken k = taken (k + 1).
Proof. intros k H. unfold taken. rewrite zseq_snoc by lia. rewrite map_app, rev_app_distr. reflexivity. Qed.
Lemma taken_In : forall k x, In x (taken k) <-> 65535 - k < x <= 65535.
Proof.
  intros k x. unfold taken. rewrite <- in_rev, in_map_iff. split.
  - intros (i & Ei & I). apply In_zseq in I. lia.
  - intros H. exists (65535 - x). split; [lia|]. apply In_zseq. lia.
Qed.
Lemma alloc_run : forall n k, 0 <= k -> exists out, pid_run (65535 - k, taken k) (repeat Alloc n) = Ok (out, (65535 - (k + Z.of_nat n), taken (k + Z.of_nat n))).
Proof.
  induction n as [|n IH]; intros k Hk.
  - exists []. cbn [repeat pid_run]. replace (k + Z.of_nat 0) with k by lia. reflexivity.
  - cbn [repeat pid_run]. rewrite next_free_unused.
    + cbn [bind snd fst]. rewrite taken_snoc by auto. replace (65535 - k - 1) with (65535 - (k + 1)) by lia. destruct (IH (k + 1)) as [out E]; [lia|]. rewrite E. cbn [bind fst snd].
      exists (65535 - k :: out). replace (k + 1 + Z.of_nat n) with (k + Z.of_nat (S n)) by lia. reflexivity.
    + destruct (existsb _ _) eqn:E; auto. apply (seen_In _ (65535 - k)) in E. apply taken_In in E. lia.
Qed.
Theorem C50_exhausted_refuted : exists out st, pid_run (65535, []) (repeat Alloc (Z.to_nat 32768)) = Ok (out, st) /\ exists st', next_free_pid st = Ok (32767, st').
Proof.
  destruct (alloc_run (Z.to_nat 32768) 0) as [out E]; [lia|]. rewrite Z2Nat.id in E by lia. exists out, (32767, taken 32768). split; [exact E|].
  generalize (taken_In 32768). generalize (taken 32768). intros l Hl. exists (32767 - 1, 32767 :: l). apply next_free_unused.
  apply not_true_is_false. intros X. apply (seen_In l 32767) in X. apply Hl in X. lia.
Qed.

(** ** C51 *)
(** [p] is the parent of [c]: stored as such, another class, and registered *)
Definition child_of (parent_id : Z -> option Z) (known : Z -> bool) (c p : Z) : Prop := parent_id c = Some p /\ p <> c /\ known p = true.
Definition is_a (parent_id : Z -> option Z) (known : Z -> bool) : Z -> Z -> Prop := clos_refl_trans_1n Z (child_of parent_id known).

Lemma parent_child : forall pid known c p, parent pid known c = Some p <-> child_of pid known c p.
Proof.
  intros pid known c p. unfold parent, child_of. destruct (pid c) as [q|]; [|split; [discriminate|intros (X & _); discriminate]]. destruct (Z.eqb_spec q c).
  - split; [discriminate|]. intros (X & Y & _). injection X as ->. congruence.
  - destruct (known q) eqn:K; [split|split; [discriminate|intros (X & _ & Y); congruence]].
    + intros X. injection X as ->. auto.
    + intros (X & _). auto.
Qed.
Lemma relatives_ok : forall pid known fuel c l, relatives pid known fuel c = Ok l -> forall a, In a l <-> is_a pid known c a.
Proof.
  induction fuel as [|fuel IH]; intros c l E a; [discriminate|]. cbn [relatives] in E. destruct (parent pid known c) as [p|] eqn:P.
  - destruct (relatives pid known fuel p) as [r|] eqn:R; [|discriminate]. injection E as <-. cbn [In]. rewrite (IH p r R). split.
    + intros [->|X]; [constructor|]. eapply Relation_Operators.rt1n_trans; [|apply X]. apply parent_child. auto.
    + intros X. destruct X as [|p' a Hp X]; auto. right. apply parent_child in Hp. rewrite P in Hp. injection Hp as <-. exact X.
  - injection E as <-. cbn [In]. split.
    + intros [->|[]]. constructor.
    + intros X. destruct X as [|p' a Hp X]; auto. apply parent_child in Hp. congruence.
Qed.

Theorem C51_accepts_partial : forall pid known fuel ref val b, accepts pid known fuel ref val = Ok b -> (b = true <-> is_a pid known val ref).
Proof.
  intros pid known fuel ref val b E. unfold accepts, class_isinstance in E. destruct (Z.eqb_spec ref val) as [->|Hne].
  - injection E as <-. split; auto. intros _. constructor.
  - destruct (relatives pid known fuel val) as [r|] eqn:R; [|discriminate]. injection E as <-. rewrite <- (relatives_ok _ _ _ _ _ R ref). rewrite existsb_exists. split.
    + intros (x & I & Ex). apply Z.eqb_eq in Ex. subst. auto.
    + intros I. exists ref. split; auto. apply Z.eqb_refl.
Qed.
(** It answers whenever the chain of ancestors ends. *)
Theorem C51_answers_partial : forall pid known ref val, Acc (fun p c => child_of pid known c p) val -> exists fuel b, accepts pid known fuel ref val = Ok b.
Proof.
  intros pid known ref val H. assert (exists fuel l, relatives pid known fuel val = Ok l) as (fuel & l & E).
  { induction H as [c _ IH]. destruct (parent pid known c) as [p|] eqn:P.
    - destruct (IH p) as (f & l & E); [apply parent_child; auto|]. exists (S f), (c :: l). cbn [relatives]. rewrite P, E. auto.
    - exists 1%nat, [c]. cbn. rewrite P. auto. }
  exists fuel. unfold accepts, class_isinstance. rewrite E. destruct (ref =? val); eexists; reflexivity.
Qed.
(** The key size of a set is asked the wrong way round: 32 bytes for the ancestors of Mob and
    EssenceData, not for the classes derived from them. *)
Theorem C51_key_size_partial : forall pid known fuel mob ess c n, unique_key_size pid known fuel mob ess c = Ok n ->
  (n = 32 <-> is_a pid known mob c \/ is_a pid known ess c) /\ (n = 32 \/ n = 16).
Proof.
  intros pid known fuel mob ess c n E. unfold unique_key_size in E. destruct (class_isinstance pid known fuel c mob) as [a|] eqn:A; [|discriminate]. cbn [bind] in E.
  apply (C51_accepts_partial pid known fuel c mob a) in A. destruct a.
  - injection E as <-. split; auto. split; auto. intros _. left. apply A. auto.
  - destruct (class_isinstance pid known fuel c ess) as [b|] eqn:B; [|discriminate]. cbn [bind] in E. apply (C51_accepts_partial pid known fuel c ess b) in B. injection E as <-. destruct b; split; auto.
    + split; auto. intros _. right. apply B. auto.
    + split; [discriminate|]. intros [X|X]; [apply A in X|apply B in X]; discriminate.
Qed.
Theorem C51_key_size_refuted : exists pid known mob ess sub, is_a pid known sub mob /\ unique_key_size pid known 5 mob ess sub = Ok 16.
Proof.
  (* 1 InterchangeObject, 2 Mob, 3 EssenceData, 4 MasterMob *)
  exists (fun c => if c =? 1 then Some 1 else if c =? 4 then Some 2 else Some 1), (fun _ => true), 2, 3, 4. split; [|reflexivity].
  eapply Relation_Operators.rt1n_trans; [|constructor]. repeat split; auto. discriminate.
Qed.

Print Assumptions C46_lookup_partial. Print Assumptions C46_add_sorted_partial. Print Assumptions C46_history_sorted_partial. Print Assumptions C46_add_before_first_refuted.
Print Assumptions C46_rounding_refuted. Print Assumptions C46_value_at_partial.
Print Assumptions C47_positions_partial. Print Assumptions C47_positions_count_partial. Print Assumptions C47_slot_length_partial. Print Assumptions C47_nested_length_refuted.
Print Assumptions C47_index_partial. Print Assumptions C47_index_unique_partial. Print Assumptions C47_index_transition_partial. Print Assumptions C47_index_outside_partial. Print Assumptions C47_boundary_refuted.
Print Assumptions C48_chosen_partial. Print Assumptions C48_fresh_iff_partial. Print Assumptions C48_refuted. Print Assumptions C48_automatic_partial. Print Assumptions C48_explicit_partial. Print Assumptions C48_slot_at_partial.
Print Assumptions C49_terminates_iff_partial. Print Assumptions C49_dependencies_partial. Print Assumptions C49_cycle_refuted.
Print Assumptions C50_fresh_partial. Print Assumptions C50_history_partial. Print Assumptions C50_exhausted_refuted.
Print Assumptions C51_accepts_partial. Print Assumptions C51_answers_partial. Print Assumptions C51_key_size_partial. Print Assumptions C51_key_size_refuted.

(** Cases *)
Example C46_case : add_keyframes Z (fun q => q) [] [(0%Q, 1); (4%Q, 2); (1%Q, 3); (4%Q, 5)] = Ok [(0%Q, 1); (1%Q, 3); (4%Q, 5)] /\
  nearest_index Z [(0%Q, 1); (1%Q, 3); (4%Q, 5)] (7 # 2)%Q = Ok 1.
Proof. vm_compute. auto. Qed.
Example C47_case : sequence_ok None [(false, 10); (true, 4); (false, 10); (false, 3)] /\ total [(false, 10); (true, 4); (false, 10); (false, 3)] = 19 /\
  map (index_at_time [(false, 10); (true, 4); (false, 10); (false, 3)]) [1; 6; 9; 10; 16; 17] = map Some [0; 1; 1; 2; 2; 3].
Proof. split; [|vm_compute; auto]. cbn. repeat split; try lia; try discriminate. intros _. exists 10. split; auto. lia. Qed.
(** 1 -> 2, 3; 2 -> 4; 3 -> 4 *)
Example C49_case : dependant_mobs (fun m => if m =? 1 then [2; 3] else if (m =? 2) || (m =? 3) then [4] else []) 20 1 = Ok [4; 3; 2].
Proof. vm_compute. auto. Qed.
Example C50_case : pid_run (65535, []) [Alloc; Claim 65533; Alloc; Alloc; Claim 5] = Ok ([65535; 65533; 65534; 65532; 5], (65531, [65532; 65534; 65533; 65535])).
Proof. vm_compute. auto. Qed.
Example C51_case : accepts (fun c => if c =? 1 then Some 1 else if c =? 4 then Some 2 else Some 1) (fun _ => true) 5 1 4 = Ok true /\
  accepts (fun c => if c =? 1 then Some 1 else if c =? 4 then Some 2 else Some 1) (fun _ => true) 5 4 2 = Ok false.
Proof. vm_compute. auto. Qed.
