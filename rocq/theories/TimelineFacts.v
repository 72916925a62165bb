(** Facts about the editorial structures of TimelineModel. *)
From Verif Require Import Base BaseFacts TimelineModel.
From Coq Require Import ZArith QArith List Bool Lia Sorting Permutation Relations.
Import ListNotations.
Open Scope Z_scope.

(** ** Lists *)
Lemma ss_app : forall A (R : A -> A -> Prop) a b,
  StronglySorted R (a ++ b) <-> StronglySorted R a /\ StronglySorted R b /\ forall x y, In x a -> In y b -> R x y.
Proof.
  induction a as [|h a IH]; intros b; cbn [app].
  - split; [intros H; repeat split; auto; [constructor|intros ? ? []]|tauto].
  - split.
    + intros H. inversion H as [|? ? H1 H2]; subst. apply IH in H1. destruct H1 as (Ha & Hb & Hab). rewrite Forall_app in H2. destruct H2 as [F1 F2]. repeat split; auto.
      * constructor; auto.
      * intros x y [<-|X] Y; [rewrite Forall_forall in F2; auto|auto].
    + intros (H1 & H2 & H3). inversion H1 as [|? ? H4 H5]; subst. constructor.
      * apply IH. repeat split; auto. intros; apply H3; auto. right; auto.
      * apply Forall_app. split; auto. apply Forall_forall. intros y Y. apply H3; auto. left; auto.
Qed.
Lemma znth_split : forall A (l : list A) i x, znth l i = Some x -> exists a b, l = a ++ x :: b /\ zlen a = i.
Proof.
  intros A l i x H. pose proof (znth_Some _ _ _ _ H) as R. unfold znth in H. replace ((0 <=? i) && (i <? zlen l)) with true in H by lia.
  apply nth_error_split in H. destruct H as (a & b & E & L). exists a, b. split; auto. unfold zlen. lia.
Qed.
Lemma zupd_split : forall A (a b : list A) x y, zupd (a ++ x :: b) (zlen a) y = a ++ y :: b.
Proof.
  intros A a b x y. unfold zupd. rewrite zlen_app, zlen_cons. pose proof (zlen_nonneg _ a). pose proof (zlen_nonneg _ b).
  replace ((0 <=? zlen a) && (zlen a <? zlen a + (1 + zlen b))) with true by lia. unfold zlen. rewrite Nat2Z.id. clear. induction a as [|h a IH]; cbn; auto. rewrite IH. auto.
Qed.
Lemma zinsert_split : forall A (a b : list A) x y, zinsert (a ++ x :: b) (zlen a + 1) y = a ++ x :: y :: b.
Proof.
  intros A a b x y. unfold zinsert. replace (a ++ x :: b) with ((a ++ [x]) ++ b) by (rewrite <- app_assoc; auto). replace (zlen a + 1) with (zlen (a ++ [x])) by (rewrite zlen_app; reflexivity).
  rewrite ztake_app_exact, zdrop_app_exact. rewrite <- app_assoc. auto.
Qed.

Lemma zseq_snoc : forall s n, 0 <= n -> zseq s (n + 1) = zseq s n ++ [s + n].
Proof.
  intros s n H. unfold zseq. replace (Z.to_nat (n + 1)) with (S (Z.to_nat n)) by lia. rewrite seq_S, map_app. cbn. do 2 f_equal. lia.
Qed.
Lemma zseq_cons : forall s n, 0 <= n -> s :: zseq (s + 1) n = zseq s (n + 1).
Proof.
  intros s n H. unfold zseq. replace (Z.to_nat (n + 1)) with (S (Z.to_nat n)) by lia. cbn [seq map]. rewrite <- seq_shift, map_map. f_equal; [lia|]. apply map_ext. intros a. lia.
Qed.

(** ** Keyframes *)
Section Keyframes.
Variable V : Type.
Definition before (p q : Q * V) : Prop := (fst p < fst q)%Q.
Definition increasing (pts : points V) : Prop := StronglySorted before pts.

Lemma increasing_nth : forall pts i j p q, increasing pts -> i < j -> znth pts i = Some p -> znth pts j = Some q -> (fst p < fst q)%Q.
Proof.
  intros pts i j p q H Hij Hi Hj. apply znth_split in Hi. destruct Hi as (a & b & -> & L). apply ss_app in H. destruct H as (_ & H & _).
  inversion H as [|? ? _ F]; subst. replace (a ++ p :: b) with ((a ++ [p]) ++ b) in Hj by (rewrite <- app_assoc; auto).
  assert (Lp : zlen (a ++ [p]) = zlen a + 1) by (rewrite zlen_app; reflexivity). rewrite znth_app2 in Hj by lia. apply znth_In in Hj. rewrite Forall_forall in F. apply F in Hj. auto.
Qed.

(** what a lookup must return: the last point at or before [t], or 0 if there is none *)
Definition lookup_ok (pts : points V) (t : Q) (i : Z) : Prop :=
  (exists p, znth pts i = Some p /\ (fst p <= t)%Q /\ forall j q, i < j -> znth pts j = Some q -> (t < fst q)%Q) \/
  (i = 0 /\ forall j q, znth pts j = Some q -> (t < fst q)%Q).

Lemma nearest_loop_ok : forall pts t, increasing pts -> forall fuel start fin,
  0 <= start -> fin < zlen pts -> start <= fin + 1 -> fin - start + 1 < Z.of_nat fuel ->
  (forall j q, j < start -> znth pts j = Some q -> (fst q < t)%Q) -> (forall j q, fin < j -> znth pts j = Some q -> (t < fst q)%Q) ->
  exists i, nearest_loop V fuel pts t start fin = Ok i /\ lookup_ok pts t i.
Proof.
  intros pts t HI. induction fuel as [|fuel IH]; intros start fin H0 H1 H2 H3 HL HH; [lia|]. cbn [nearest_loop]. destruct (Z.ltb_spec fin start).
  - exists (Z.max 0 fin). split; auto. destruct (Z_lt_dec fin 0).
    + right. split; [lia|]. intros j q Hq. apply (HH j q); auto. apply znth_Some in Hq. lia.
    + left. destruct (znth_in_range _ pts fin) as [p Hp]; [lia|]. exists p. replace (Z.max 0 fin) with fin by lia. split; auto. split.
      * apply Qlt_le_weak. apply (HL fin); [lia|auto].
      * intros j q Hj. apply HH; auto.
  - assert (Hm : start <= (start + fin) / 2 <= fin) by (split; [apply Z.div_le_lower_bound; lia|apply Z.div_le_upper_bound; lia]).
    set (m := (start + fin) / 2) in *. destruct (znth_in_range _ pts m) as [p Hp]; [lia|]. rewrite Hp. destruct (Qcompare (fst p) t) eqn:C.
    + exists m. split; auto. left. exists p. split; auto. apply Qeq_alt in C. split; [rewrite C; apply Qle_refl|]. intros j q Hj Hq. rewrite <- C. eapply increasing_nth; eauto.
    + apply Qlt_alt in C. apply IH; try lia; auto. intros j q Hj Hq. destruct (Z.eq_dec j m) as [->|]; [assert (q = p) by congruence; subst; auto|].
      eapply Qlt_trans; [eapply (increasing_nth pts j m); eauto; lia|auto].
    + apply Qgt_alt in C. apply IH; try lia; auto. intros j q Hj Hq. destruct (Z.eq_dec j m) as [->|]; [assert (q = p) by congruence; subst; auto|].
      eapply Qlt_trans; [exact C|]. eapply (increasing_nth pts m j); eauto. lia.
Qed.

Lemma nearest_index_ok : forall pts t, increasing pts -> exists i, nearest_index V pts t = Ok i /\ lookup_ok pts t i.
Proof.
  intros pts t H. pose proof (zlen_nonneg _ pts). apply nearest_loop_ok; auto; try lia; try (unfold zlen; lia).
  - intros j q Hj Hq. apply znth_Some in Hq. lia.
  - intros j q Hj Hq. apply znth_Some in Hq. lia.
Qed.
End Keyframes.

(** ** Sequences *)
Definition signed (c : component) : Z := if fst c then - snd c else snd c.
Definition total (cs : list component) : Z := fold_right (fun c n => signed c + n) 0 cs.
(** where component [c] starts if the components before it are [pre] *)
Definition pos_after (pre : list component) (c : component) : Z := total pre - (if fst c then snd c else 0).

Lemma total_app : forall a b, total (a ++ b) = total a + total b.
Proof. induction a as [|c a IH]; intros b; cbn; auto. fold (total (a ++ b)). rewrite IH. unfold total. lia. Qed.
Lemma positions_from_spec : forall cs index len, positions_from index len cs =
  map (fun k => let c := nth k cs (false, 0) in (index + Z.of_nat k, len + pos_after (firstn k cs) c, c)) (seq 0 (List.length cs)).
Proof.
  induction cs as [|[tr n] cs IH]; intros index len; auto. cbn [List.length seq map positions_from]. rewrite <- seq_shift, map_map.
  assert (G : forall d, d = signed (tr, n) -> map (fun k => let c := nth k cs (false, 0) in (index + 1 + Z.of_nat k, len + d + pos_after (firstn k cs) c, c)) (seq 0 (List.length cs)) =
    map (fun k => let c := nth (S k) ((tr, n) :: cs) (false, 0) in (index + Z.of_nat (S k), len + pos_after (firstn (S k) ((tr, n) :: cs)) c, c)) (seq 0 (List.length cs))).
  { intros d ->. apply map_ext. intros k. cbn [nth firstn]. cbn zeta. f_equal. f_equal; [lia|]. unfold pos_after. change (total ((tr, n) :: firstn k cs)) with (signed (tr, n) + total (firstn k cs)). unfold Z.sub. rewrite <- !Z.add_assoc. reflexivity. }
  destruct tr; (etransitivity; [|exact (f_equal2 cons eq_refl (G _ eq_refl))]); rewrite IH; unfold signed; cbn [fst snd nth firstn];
    apply f_equal2; try (unfold pos_after; cbn; f_equal; f_equal; lia); apply map_ext; intros k; cbn zeta; f_equal; f_equal; lia.
Qed.
Lemma slot_length_loop_ok : forall cs n, slot_length_loop n cs = n + total cs.
Proof. induction cs as [|[[] k] cs IH]; intros n; cbn; [lia| |]; fold (total cs); rewrite IH; unfold signed; cbn; lia. Qed.

(** every transition follows a component at least as long as itself *)
Fixpoint sequence_ok (prev : option component) (cs : list component) : Prop :=
  match cs with
  | [] => True
  | (tr, n) :: r => 0 <= n /\ (tr = true -> exists m, prev = Some (false, m) /\ n <= m) /\ sequence_ok (Some (tr, n)) r
  end.

(** component [i] of [cs] is at [pos] *)
Definition at_pos (cs : list component) (i pos : Z) (c : component) : Prop := exists a b, cs = a ++ c :: b /\ zlen a = i /\ pos = pos_after a c.
Definition covers (t : Z) (pos : Z) (c : component) : Prop := if fst c then pos <= t < pos + snd c else pos < t <= pos + snd c.

(** loop over the rest, [c] last seen at index [zlen a] (not matching) *)
Lemma index_loop_ok : forall t cs a c all, all = a ++ c :: cs -> sequence_ok (Some c) cs -> 0 <= snd c -> t <= total all ->
  pos_after a c < t -> (fst c = true -> pos_after a c + snd c <= t) -> (fst c = false -> True) ->
  exists i pos c', index_loop t (Some (zlen a)) (positions_from (zlen a + 1) (total (a ++ [c])) cs) = Some i /\ at_pos all i pos c' /\ covers t pos c'.
Proof.
  intros t. induction cs as [|[tr n] cs IH]; intros a c all -> Hs Hc Ht Hp Htr _.
  - cbn. exists (zlen a), (pos_after a c), c. split; auto. split; [exists a, []; auto|]. unfold covers, pos_after in *. rewrite total_app in Ht. unfold total in Ht at 2. cbn in Ht. unfold signed in Ht.
    destruct c as [[] m]; cbn [fst snd] in *; [|lia]. specialize (Htr eq_refl). lia.
  - cbn [sequence_ok] in Hs. destruct Hs as (Hn & Htn & Hs). set (c1 := (tr, n)). set (L := total (a ++ [c])). assert (EL : L = total a + signed c) by (unfold L; rewrite total_app; cbn; lia).
    assert (EP : pos_after (a ++ [c]) c1 = L - (if tr then n else 0)) by reflexivity.
    set (p1 := L - (if tr then n else 0)) in *.
    assert (EQ : positions_from (zlen a + 1) L (c1 :: cs) = (zlen a + 1, p1, c1) :: positions_from (zlen a + 1 + 1) (total ((a ++ [c]) ++ [c1])) cs).
    { rewrite total_app. fold L. unfold p1, c1. destruct tr; cbn [positions_from total fold_right]; unfold signed; cbn [fst snd]; f_equal; try (f_equal; f_equal; lia); f_equal; lia. }
    match goal with |- context [positions_from ?i ?l ?x] => replace (positions_from i l x) with ((zlen a + 1, p1, c1) :: positions_from (zlen a + 1 + 1) (total ((a ++ [c]) ++ [c1])) cs) by (symmetry; exact EQ) end. clear EQ.
    cbn [index_loop]. unfold c1 at 1. assert (EA : a ++ c :: (tr, n) :: cs = (a ++ [c]) ++ c1 :: cs) by (rewrite <- app_assoc; auto).
    destruct (tr && ((p1 <=? t) && (t <? p1 + n))) eqn:C.
    + exists (zlen a + 1), p1, c1. split; auto. split.
      * exists (a ++ [c]), cs. split; auto. split; auto. rewrite zlen_app. auto.
      * unfold covers. cbn. destruct tr; [|discriminate]. cbn in *. lia.
    + destruct (Z.leb_spec t p1).
      * exists (zlen a), (pos_after a c), c. split; auto. split; [exists a, ((tr, n) :: cs); auto|]. unfold covers, pos_after in *. destruct c as [[] m]; cbn [fst snd] in *; unfold signed in EL; cbn in EL.
        -- exfalso. specialize (Htr eq_refl). destruct tr.
           ++ destruct (Htn eq_refl) as (? & X & _). discriminate.
           ++ unfold p1 in *. lia.
        -- unfold p1 in *. destruct tr; lia.
      * replace (zlen a + 1) with (zlen (a ++ [c])) by (rewrite zlen_app; auto).
        destruct (IH (a ++ [c]) c1 _ EA Hs) as (i & pos & c' & E & A & Cv); auto.
        -- rewrite EP. unfold c1. cbn [fst snd]. intros ->. cbn in C. lia.
        -- exists i, pos, c'. auto.
Qed.

(** ** Slot ids *)
Lemma insert_sorted_perm : forall x l, Permutation (insert_sorted x l) (x :: l).
Proof. induction l as [|y l IH]; cbn; auto. destruct (x <=? y); auto. eapply perm_trans; [apply perm_skip; apply IH|]. apply perm_swap. Qed.
Lemma sort_ids_perm : forall l, Permutation (sort_ids l) l.
Proof. induction l as [|x l IH]; cbn; auto. eapply perm_trans; [apply insert_sorted_perm|]. auto. Qed.
Lemma insert_sorted_sorted : forall x l, StronglySorted Z.le l -> StronglySorted Z.le (insert_sorted x l).
Proof.
  induction l as [|y l IH]; intros H; cbn; [repeat constructor|]. inversion H as [|? ? H1 H2]; subst. destruct (Z.leb_spec x y).
  - constructor; auto. constructor; auto. eapply Forall_impl; [|apply H2]. cbn. lia.
  - constructor; [auto|]. eapply Permutation_Forall; [apply Permutation_sym, insert_sorted_perm|]. constructor; auto. lia.
Qed.
Lemma sort_ids_sorted : forall l, StronglySorted Z.le (sort_ids l).
Proof. induction l as [|x l IH]; cbn; [constructor|]. apply insert_sorted_sorted. auto. Qed.
Lemma pick_loop_last : forall l i acc, pick_loop i (map Some l ++ [None]) acc = Some (i + zlen l).
Proof. induction l as [|x l IH]; intros i acc; cbn [map app pick_loop]; [rewrite zlen_nil; f_equal; lia|]. rewrite IH, zlen_cons. f_equal. lia. Qed.

(** ** Dependencies *)
Section Deps.
Variable refs : Z -> list Z.
Variable self : Z.
Inductive reaches : Z -> Z -> Prop := reach_refl : forall m, reaches m m | reach_step : forall m n k, In n (refs m) -> reaches n k -> reaches m k.
Definition below (c p : Z) : Prop := In c (refs p).

Definition yields (vis : list Z) : list Z := filter (fun x => negb (x =? self)) (rev vis).
(** the newest first; everything a mob refers to was visited before it *)
Fixpoint topo (vis : list Z) : Prop := match vis with [] => True | m :: r => (forall c, In c (refs m) -> In c r) /\ topo r end.

Lemma seen_In : forall vis m, seen vis m = true <-> In m vis.
Proof. intros vis m. unfold seen. rewrite existsb_exists. split; [intros (x & I & E); apply Z.eqb_eq in E; subst; auto|intros I; exists m; split; auto; apply Z.eqb_refl]. Qed.
Lemma yields_cons : forall m vis, yields (m :: vis) = if m =? self then yields vis else yields vis ++ [m].
Proof. intros m vis. unfold yields. cbn [rev]. rewrite filter_app. cbn. destruct (m =? self); cbn; auto using app_nil_r. Qed.
Lemma unseen_nil : forall vis l, filter (fun r => negb (seen vis r)) l = [] <-> forall c, In c l -> In c vis.
Proof.
  intros vis l. split.
  - intros E c I. apply seen_In. destruct (seen vis c) eqn:S; auto. assert (X : In c (filter (fun r => negb (seen vis r)) l)) by (apply filter_In; rewrite S; auto). rewrite E in X. destruct X.
  - intros H. destruct (filter _ l) as [|c r] eqn:E; auto. assert (X : In c (filter (fun r => negb (seen vis r)) l)) by (rewrite E; left; auto).
    apply filter_In in X. destruct X as [I S]. apply H in I. apply seen_In in I. rewrite I in S. discriminate.
Qed.

Definition done (m : Z) : Prop := forall rest vis, topo vis -> NoDup vis -> exists k new,
  (forall fuel, deps_loop refs (k + fuel) self (m :: rest) vis (yields vis) = deps_loop refs fuel self rest (new ++ vis) (yields (new ++ vis))) /\
  topo (new ++ vis) /\ NoDup (new ++ vis) /\ In m (new ++ vis) /\ forall x, In x new -> reaches m x.

Lemma done_list : forall l, Forall done l -> forall rest vis, topo vis -> NoDup vis -> exists k new,
  (forall fuel, deps_loop refs (k + fuel) self (l ++ rest) vis (yields vis) = deps_loop refs fuel self rest (new ++ vis) (yields (new ++ vis))) /\
  topo (new ++ vis) /\ NoDup (new ++ vis) /\ (forall m, In m l -> In m (new ++ vis)) /\ forall x, In x new -> exists m, In m l /\ reaches m x.
Proof.
  intros l H. induction H as [|m l Hm _ IH]; intros rest vis Ht Hn.
  - exists 0%nat, []. repeat split; auto. { intros m []. } intros x [].
  - destruct (Hm (l ++ rest) vis Ht Hn) as (k1 & n1 & E1 & T1 & N1 & I1 & R1). destruct (IH rest _ T1 N1) as (k2 & n2 & E2 & T2 & N2 & I2 & R2).
    exists (k1 + k2)%nat, (n2 ++ n1). rewrite <- app_assoc. split; [|split; [|split; [|split]]]; auto.
    + intros fuel. rewrite <- Nat.add_assoc. cbn [app]. rewrite E1, E2. auto.
    + intros x [<-|X]; auto. apply in_or_app. auto.
    + intros x X. apply in_app_or in X. destruct X as [X|X].
      * apply R2 in X. destruct X as (m' & X & Y). exists m'. split; auto. right; auto.
      * exists m. split; [left; auto|auto].
Qed.

Lemma visit : forall m rest vis, topo vis -> NoDup vis -> (forall c, In c (refs m) -> In c vis) -> exists new,
  (forall fuel, deps_loop refs (S fuel) self (m :: rest) vis (yields vis) = deps_loop refs fuel self rest (new ++ vis) (yields (new ++ vis))) /\
  topo (new ++ vis) /\ NoDup (new ++ vis) /\ In m (new ++ vis) /\ forall x, In x new -> x = m.
Proof.
  intros m rest vis Ht Hn Hc. destruct (seen vis m) eqn:S.
  - exists []. split; [|split; [|split; [|split]]]; auto.
    + intros fuel. cbn [deps_loop]. rewrite (proj2 (unseen_nil vis (refs m)) Hc), S. auto.
    + apply seen_In. auto.
    + intros x [].
  - exists [m]. assert (X : ~ In m vis) by (intros I; apply seen_In in I; congruence). split; [|split; [|split; [|split]]]; auto.
    + intros fuel. cbn [deps_loop]. rewrite (proj2 (unseen_nil vis (refs m)) Hc), S. cbn [app]. rewrite yields_cons. auto.
    + split; auto.
    + constructor; auto.
    + left; auto.
    + intros x [<-|[]]; auto.
Qed.

Lemma done_all : forall m, Acc below m -> done m.
Proof.
  intros m H. induction H as [m _ IH]. intros rest vis Ht Hn. destruct (filter (fun r => negb (seen vis r)) (refs m)) as [|c0 cs] eqn:F.
  - destruct (visit m rest vis Ht Hn (proj1 (unseen_nil _ _) F)) as (new & E & T & N & I & R). exists 1%nat, new. repeat split; auto. intros x X. apply R in X. subst. constructor.
  - assert (HD : Forall done (rev (c0 :: cs))).
    { apply Forall_forall. intros c C. apply IH. apply in_rev in C. rewrite <- F in C. apply filter_In in C. apply C. }
    destruct (done_list _ HD (m :: rest) vis Ht Hn) as (k & n1 & E1 & T1 & N1 & I1 & R1).
    destruct (visit m rest _ T1 N1) as (n2 & E2 & T2 & N2 & I2 & R2).
    { intros c C. destruct (seen vis c) eqn:S; [apply in_or_app; right; apply seen_In; auto|]. apply I1. apply -> in_rev. rewrite <- F. apply filter_In. rewrite S. auto. }
    exists (S (k + 1))%nat, (n2 ++ n1). rewrite <- app_assoc. split; [|split; [|split; [|split]]]; auto.
    + intros fuel. cbn [Nat.add deps_loop]. rewrite F. rewrite <- Nat.add_assoc. rewrite E1. apply E2.
    + intros x X. apply in_app_or in X. destruct X as [X|X]; [apply R2 in X; subst; constructor|]. apply R1 in X. destruct X as (c & C & X). apply in_rev in C. rewrite <- F in C. apply filter_In in C.
      eapply reach_step; [apply C|auto].
Qed.

Lemma loop_partial : forall fuel stack vis out, topo vis -> NoDup vis -> deps_loop refs fuel self stack vis (yields vis) = Ok out ->
  exists new, out = yields (new ++ vis) /\ topo (new ++ vis) /\ NoDup (new ++ vis) /\ forall m, In m stack -> In m (new ++ vis).
Proof.
  induction fuel as [|fuel IH]; intros [|m rest] vis out Ht Hn E; try discriminate.
  - cbn in E. injection E as <-. exists []. repeat split; auto. intros m [].
  - cbn in E. injection E as <-. exists []. repeat split; auto. intros m [].
  - destruct (filter (fun r => negb (seen vis r)) (refs m)) as [|c0 cs] eqn:F.
    + destruct (visit m rest vis Ht Hn (proj1 (unseen_nil _ _) F)) as (new & E1 & T & N & I & _). rewrite E1 in E. apply IH in E; auto.
      destruct E as (n2 & -> & T2 & N2 & I2). exists (n2 ++ new). rewrite <- app_assoc. repeat split; auto. intros x [<-|X]; auto. apply in_or_app. auto.
    + cbn [deps_loop] in E. rewrite F in E. apply IH in E; auto. destruct E as (n2 & -> & T2 & N2 & I2). exists n2. repeat split; auto.
      intros x X. apply I2. apply in_or_app. auto.
Qed.
Lemma topo_acc : forall vis m, topo vis -> In m vis -> Acc below m.
Proof.
  induction vis as [|h vis IH]; intros m Ht I; [destruct I|]. destruct Ht as [Hh Ht]. destruct I as [->|I]; [|auto]. constructor. intros c C. apply IH; auto.
Qed.
Lemma topo_closed : forall vis m x, topo vis -> In m vis -> reaches m x -> In x vis.
Proof.
  intros vis m x Ht I R. induction R as [|m n k C R IH]; auto. apply IH. clear - Ht I C. induction vis as [|h vis IH]; [destruct I|]. destruct Ht as [Hh Ht].
  destruct I as [->|I]; [right; auto|right; auto].
Qed.
Lemma topo_order : forall a m b c, topo (a ++ m :: b) -> In c (refs m) -> In c b.
Proof. induction a as [|h a IH]; intros m b c Ht C; cbn in Ht; [apply Ht; auto|]. eapply IH; [apply Ht|auto]. Qed.
End Deps.

(** ** Property ids *)
Lemma pid_loop_ok : forall fuel next used, 32768 <= next -> next - 32768 < Z.of_nat fuel ->
  (exists r, pid_loop fuel next used = Ok r /\ 32768 <= r <= next /\ ~ In r used /\ forall x, r < x <= next -> In x used) \/
  (pid_loop fuel next used = Err ValueError /\ forall x, 32768 <= x <= next -> In x used).
Proof.
  induction fuel as [|fuel IH]; intros next used H1 H2; [lia|]. cbn [pid_loop]. destruct (existsb (Z.eqb next) used) eqn:E.
  - assert (I : In next used) by (apply (seen_In used next); auto). destruct (Z.ltb_spec (next - 1) 32768).
    + right. split; auto. intros x X. replace x with next by lia. auto.
    + destruct (IH (next - 1) used) as [(r & Er & Hr & Hn & Hx)|[Er Hx]]; [lia|lia| |].
      * left. exists r. split; auto. split; [lia|]. split; auto. intros x X. destruct (Z.eq_dec x next) as [->|]; auto. apply Hx. lia.
      * right. split; auto. intros x X. destruct (Z.eq_dec x next) as [->|]; auto. apply Hx. lia.
  - left. exists next. split; auto. split; [lia|]. split; [|intros; lia]. intros I. apply (seen_In used next) in I. unfold seen in I. congruence.
Qed.
Lemma pid_loop_low : forall fuel next used, next < 32768 -> pid_loop (S fuel) next used = if existsb (Z.eqb next) used then Err ValueError else Ok next.
Proof. intros fuel next used H. cbn [pid_loop]. replace (next - 1 <? 32768) with true by lia. auto. Qed.
