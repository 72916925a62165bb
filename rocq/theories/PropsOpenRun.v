(** C67: opening a file for writing succeeds, and the built-in character type keeps its size. *)
From Verif Require Import Base BaseFacts TypesModel TimelineModel MetaModel MetaFacts MetaTables PropsMeta PropsBuiltin PropsMetaCopy PropsMetaMore OpenMetaModel OpenMetaFacts PropsOpenMeta.
From Coq Require Import ZArith List Bool String Lia.
Import ListNotations.
Open Scope Z_scope.

(** ** Free ids *)
(** at least [k] dynamic ids can still be chosen *)
Definition room (st : Z * list Z) (k : nat) : Prop :=
  exists l, NoDup l /\ (k <= List.length l)%nat /\ forall x, In x l -> 32768 <= x <= fst st /\ ~ In x (snd st).
Lemma pid_loop_max : forall fuel next used r, pid_loop fuel next used = Ok r -> forall x, r < x <= next -> In x used.
Proof.
  induction fuel as [|fuel IH]; cbn; intros next used r E x H; destruct (existsb (Z.eqb next) used) eqn:B; try discriminate; try (injection E as <-; lia).
  destruct (next - 1 <? 32768); [discriminate|]. destruct (Z.eq_dec x next) as [->|]; [apply existsb_exists in B as (y & I & Q); apply Z.eqb_eq in Q as ->; exact I|].
  apply (IH _ _ _ E). lia.
Qed.
Lemma pid_loop_succeeds : forall fuel next used x, (Z.to_nat (next - 32768) < fuel)%nat -> 32768 <= x <= next -> ~ In x used -> exists r, pid_loop fuel next used = Ok r.
Proof.
  induction fuel as [|fuel IH]; intros next used x F H N; [lia|]. cbn. destruct (existsb (Z.eqb next) used) eqn:B; [|eauto].
  assert (x <> next) by (intros ->; apply existsb_exists in B as (y & I & Q); apply Z.eqb_eq in Q as ->; auto).
  destruct (Z.ltb_spec (next - 1) 32768); [lia|]. apply (IH (next - 1) used x); [lia|lia|auto].
Qed.
Lemma next_free_room : forall st k, room st (S k) -> exists r st', next_free_pid st = Ok (r, st') /\ 32768 <= r /\ room st' k.
Proof.
  intros [next used] k (l & N & L & H). destruct l as [|x l]; [cbn in L; lia|]. pose proof (H x (or_introl eq_refl)) as [H1 H2]. cbn [fst snd] in *. unfold next_free_pid.
  destruct (pid_loop_succeeds (S (Z.to_nat (next - 32768))) next used x) as (r & E); [lia|auto|auto|]. rewrite E. cbn [bind]. exists r, (r - 1, r :: used). split; [reflexivity|].
  assert (Mx : forall y, In y (x :: l) -> y <= r) by (intros y I; destruct (H y I) as [A B]; destruct (Z_le_gt_dec y r); [lia|]; exfalso; apply B; apply (pid_loop_max _ _ _ _ E); lia).
  split; [specialize (Mx x (or_introl eq_refl)); lia|].
  set (g := filter (fun y => negb (y =? r)) (x :: l)).
  assert (G : (List.length (x :: l) <= List.length (r :: g))%nat).
  { apply NoDup_incl_length; [exact N|]. intros y I. destruct (Z.eq_dec y r) as [->|NE]; [left; reflexivity|right]. apply filter_In. split; [exact I|]. apply negb_true_iff, Z.eqb_neq. exact NE. }
  exists g. split; [apply NoDup_filter; exact N|]. cbn [List.length] in G, L. split; [lia|]. intros y I. apply filter_In in I as [I Q]. apply negb_true_iff, Z.eqb_neq in Q. destruct (H y I) as [A B]. specialize (Mx y I). cbn [fst snd In].
  split; [lia|]. intros [?|?]; [congruence|auto].
Qed.
Lemma room_le : forall st j k, room st k -> (j <= k)%nat -> room st j.
Proof. intros st j k (l & N & L & H) J. exists l. split; [auto|]. split; [lia|auto]. Qed.

(** ** One property, one class *)
Definition dynb (p : pdef) : bool := 32768 <=? p_pid p.
Definition dyns (c : cdef) : nat := List.length (filter dynb (props c)).
Lemma renew_runs : forall m h p k, nth_error (m_heap m) h <> None -> room (m_pids m) (k + (if dynb p then 1 else 0))%nat ->
  exists m' r, renew m h p = Ok (m', r) /\ room (m_pids m') k /\ List.length (m_heap m') = List.length (m_heap m).
Proof.
  intros m h p k N R. unfold renew. destruct ((32768 <=? p_pid p) && existsb (Z.eqb (p_pid p)) (snd (m_pids m))) eqn:B.
  - apply andb_prop in B as [B _]. unfold dynb in R. rewrite B, Nat.add_1_r in R. destruct (next_free_room _ _ R) as (r & st' & E & _ & R'). rewrite E. cbn [bind fst snd].
    destruct (nth_error (m_heap m) h) as [c|]; [|congruence]. eexists. eexists. split; [reflexivity|]. split; [exact R'|]. cbn [with_pids with_class m_heap]. apply upd_len.
  - exists m, None. split; [reflexivity|]. split; [eapply room_le; [exact R|lia]|reflexivity].
Qed.
Lemma each_class_runs : forall h l m k, nth_error (m_heap m) h <> None -> room (m_pids m) (k + List.length (filter dynb l))%nat ->
  exists m', each (renew_for_class h) l m = Ok m' /\ room (m_pids m') k.
Proof.
  intros h. induction l as [|p l IH]; intros m k N R; cbn [each filter] in *; [exists m; split; [reflexivity|eapply room_le; [exact R|lia]]|].
  destruct (renew_runs m h p (k + List.length (filter dynb l))%nat N) as (m1 & r & E & R1 & L1).
  { eapply room_le; [exact R|]. destruct (dynb p); cbn [List.length]; lia. }
  unfold renew_for_class. rewrite E. cbn [bind fst]. destruct (IH m1 k) as (m' & E' & R'); [|exact R1|].
  - apply nth_error_Some. rewrite L1. apply nth_error_Some. exact N.
  - exists m'. split; [exact E'|exact R'].
Qed.

(** ** Types *)
(** what the loop over the types meets: a type that is there already, one whose class has no dynamic
    properties, or the generic character *)
Definition gen_type (m : meta) (x : Z * nat) : Prop :=
  exists t s c k p, nth_error (m_theap m) (snd x) = Some t /\ t_kind t = KGenChar s (p_pid p) /\ class_of m GENERICCHAR = Some c /\ c_props c = [(k, p)] /\ p_auid p = k.
Definition plain_type (m : meta) (x : Z * nat) : Prop :=
  exists t c, nth_error (m_theap m) (snd x) = Some t /\ class_of m (fst (kind_class (t_kind t))) = Some c /\ forall p, In p (props c) -> p_pid p < 32768.
Definition skipped (m : meta) (x : Z * nat) : bool := existsb (Z.eqb (fst x)) ROOT_TYPES || existsb (Z.eqb (fst x)) (m_tset m).

Lemma plain_step : forall m x, skipped m x = false -> plain_type m x -> exists c, add_type m x = Ok (store_class (store_type m (fst x)) c).
Proof.
  intros m x K (t & c & T & C & P). unfold add_type. fold (skipped m x). rewrite K, T. unfold class_of in C. destruct (zget (m_cauid m) _) as [hc|]; [|discriminate]. rewrite C. exists (c_auid c).
  assert (E : forall l, (forall p, In p l -> p_pid p < 32768) -> each (renew_for_type hc (snd x)) l m = Ok m).
  { induction l as [|p l IH]; intros H; cbn [each]; [reflexivity|]. unfold renew_for_type at 1, renew. destruct (Z.leb_spec 32768 (p_pid p)) as [D|D]; [specialize (H p (or_introl eq_refl)); lia|].
    cbn [andb bind snd fst]. apply IH. intros q I. apply H. cbn. auto. }
  rewrite (E _ P). reflexivity.
Qed.
Lemma gen_step : forall m x k, wf m -> skipped m x = false -> gen_type m x -> room (m_pids m) (S k) ->
  exists m', add_type m x = Ok m' /\ room (m_pids m') k /\ gen_type m' x /\ m_tset m' = add_key (m_tset m) (fst x) /\ In GENERICCHAR (m_cset m') /\
    (forall a, a <> GENERICCHAR -> class_of m' a = class_of m a) /\ (forall h, h <> snd x -> nth_error (m_theap m') h = nth_error (m_theap m) h).
Proof.
  intros m x k W K (t & s & c & key & p & T & Kd & C & P & Pa) R. unfold add_type. fold (skipped m x). rewrite K, T, Kd. cbn [kind_class fst]. pose proof C as C0. unfold class_of in C. destruct (zget (m_cauid m) GENERICCHAR) as [hc|] eqn:Hz; [|discriminate]. rewrite C.
  assert (Ca : c_auid c = GENERICCHAR) by (destruct W as (_ & W & _); apply W in Hz as (d & D1 & D2); congruence).
  assert (Pr : props c = [p]) by (unfold props; rewrite P; reflexivity). rewrite Pr. cbn [each]. unfold renew_for_type, renew.
  destruct ((32768 <=? p_pid p) && existsb (Z.eqb (p_pid p)) (snd (m_pids m))) eqn:B.
  - destruct (next_free_room _ _ R) as (f & st' & E & _ & R'). rewrite E. cbn [bind fst snd]. rewrite C. cbn [bind fst snd]. unfold move_entry. cbn [with_pids with_class m_theap]. rewrite T, Kd, Z.eqb_refl. cbn [bind].
    set (c' := set_pid c (p_auid p) f). eexists. split; [reflexivity|]. split; [exact R'|].
    assert (U : forall a, class_of (with_pids (with_class m hc c') st') a = if GENERICCHAR =? a then Some c' else class_of m a) by (intros a; eapply class_of_upd; eauto).
    split; [|split; [reflexivity|split; [|split]]].
    + exists (TDef (t_name t) (t_auid t) (KGenChar s f)), s, c', key, (with_pid p f).
      split; [cbn [store_class store_type with_type m_theap]; eapply upd_same; exact T|]. split; [reflexivity|]. split; [exact (eq_trans (U GENERICCHAR) eq_refl)|].
      split; [unfold c'; rewrite set_pid_props, P; unfold swap_id; cbn [map fst snd]; rewrite Z.eqb_refl; reflexivity|exact Pa].
    + cbn [store_class m_cset]. rewrite Ca. apply add_key_In. auto.
    + intros a NE. refine (eq_trans (U a) _). destruct (Z.eqb_spec GENERICCHAR a); [congruence|reflexivity].
    + intros h NE. cbn [store_class store_type with_type m_theap]. apply upd_other. exact NE.
  - cbn [bind fst snd]. eexists. split; [reflexivity|]. split; [eapply room_le; [exact R|lia]|]. split; [exists t, s, c, key, p; auto|]. split; [reflexivity|].
    split; [cbn [store_class m_cset]; rewrite Ca; apply add_key_In; auto|]. split; auto.
Qed.

Lemma skipped_mono : forall m m' x, incl (m_tset m) (m_tset m') -> skipped m x = true -> skipped m' x = true.
Proof.
  intros m m' x I H. unfold skipped in *. apply orb_true_iff in H as [H|H]; apply orb_true_iff; [auto|right].
  apply existsb_exists in H as (y & J & Q). apply existsb_exists. exists y. auto.
Qed.
Lemma types_plain : forall l m, (forall x, In x l -> skipped m x = true \/ plain_type m x) ->
  exists m', each add_type l m = Ok m' /\ m_pids m' = m_pids m /\ m_heap m' = m_heap m /\ m_cauid m' = m_cauid m /\ m_theap m' = m_theap m /\ incl (m_cset m) (m_cset m').
Proof.
  induction l as [|x l IH]; intros m H; cbn [each]; [exists m; repeat split; auto; apply incl_refl|].
  destruct (skipped m x) eqn:K.
  - unfold add_type at 1. fold (skipped m x). rewrite K. cbn [bind]. apply IH. intros y I. apply H. cbn. auto.
  - destruct (H x (or_introl eq_refl)) as [Q|P]; [congruence|]. destruct (plain_step m x K P) as (c & E). rewrite E. cbn [bind].
    destruct (IH (store_class (store_type m (fst x)) c)) as (m' & E' & A1 & A2 & A3 & A4 & A5).
    + intros y I. destruct (H y (or_intror I)) as [Q|P']; [left|right; exact P']. apply (skipped_mono m); [|exact Q]. intros a J. cbn [store_class store_type m_tset]. apply add_key_In. auto.
    + exists m'. split; [exact E'|]. split; [exact A1|]. split; [exact A2|]. split; [exact A3|]. split; [exact A4|]. intros a J. apply A5. cbn [store_class m_cset]. apply add_key_In. auto.
Qed.
Definition is_gen (m : meta) (x : Z * nat) : Prop := exists t s pid, nth_error (m_theap m) (snd x) = Some t /\ t_kind t = KGenChar s pid.
Lemma kind_not_gen : forall k, (forall s pid, k <> KGenChar s pid) -> fst (kind_class k) <> GENERICCHAR.
Proof. intros k H. destruct k; try discriminate. exfalso. eapply H. reflexivity. Qed.
Lemma types_run : forall n0 (orig : Z -> Z -> Z -> Prop), (forall a k a' k' pid, orig a k pid -> orig a' k' pid -> a = a' /\ k = k') ->
  forall l m k, merge_inv n0 orig m -> NoDup (map fst l) -> (forall x, In x l -> zget (m_tauid m) (fst x) = Some (snd x)) ->
  (forall x, In x l -> skipped m x = true \/ plain_type m x \/ gen_type m x) ->
  (forall x y, In x l -> In y l -> is_gen m x -> is_gen m y -> skipped m x = false -> skipped m y = false -> x = y) -> room (m_pids m) (S k) ->
  exists m', each add_type l m = Ok m' /\ room (m_pids m') k /\
    (forall x, In x l -> skipped m x = false -> gen_type m x -> gen_type m' x /\ In GENERICCHAR (m_cset m')).
Proof.
  intros n0 orig O. induction l as [|x l IH]; intros m k I N L H U R; cbn [each].
  - exists m. split; [reflexivity|]. split; [eapply room_le; [exact R|lia]|]. intros x [].
  - destruct (skipped m x) eqn:K.
    + unfold add_type at 1. fold (skipped m x). rewrite K. cbn [bind]. destruct (IH m k I) as (m' & E & R' & G); auto.
      * cbn [map] in N. inversion N; auto.
      * intros y J. apply L. cbn. auto.
      * intros y J. apply H. cbn. auto.
      * intros y z Jy Jz. apply U; cbn; auto.
      * exists m'. split; [exact E|]. split; [exact R'|]. intros y [<-|J] Q; [congruence|]. apply G; auto.
    + assert (D : gen_type m x \/ ~ gen_type m x /\ plain_type m x).
      { destruct (H x (or_introl eq_refl)) as [Q|[(t & c & T & C & P)|G]]; [congruence| |auto].
        destruct (t_kind t) as [| | | | | | | | | | |size pid| | | |] eqn:Kd; try (right; split; [intros (t' & s' & c' & k' & p' & T' & Kd' & _); congruence|exists t, c; rewrite Kd; auto]).
        destruct (c_props c) as [|[key p] [|? ?]] eqn:Pc.
        - right. split; [intros (t' & s' & c' & k' & p' & T' & Kd' & C' & P' & _); cbn [kind_class fst] in C; congruence|exists t, c; rewrite Kd; auto].
        - destruct (Z.eq_dec pid (p_pid p)) as [->|NE].
          + destruct (Z.eq_dec (p_auid p) key) as [Ek|NE].
            * left. exists t, size, c, key, p. auto.
            * right. split; [intros (t' & s' & c' & k' & p' & T' & Kd' & C' & P' & Q'); cbn [kind_class fst] in C; congruence|exists t, c; rewrite Kd; auto].
          + right. split; [intros (t' & s' & c' & k' & p' & T' & Kd' & C' & P' & Q'); cbn [kind_class fst] in C; assert (c' = c) by congruence; subst c'; rewrite Pc in P'; injection P' as <- <-; congruence|exists t, c; rewrite Kd; auto].
        - right. split; [intros (t' & s' & c' & k' & p' & T' & Kd' & C' & P' & _); cbn [kind_class fst] in C; assert (c' = c) by congruence; subst c'; rewrite Pc in P'; discriminate|exists t, c; rewrite Kd; auto]. }
      cbn [map] in N. inversion N as [|? ? N1 N2]; subst. destruct D as [G|[NG P]].
      * destruct (gen_step m x k) as (m1 & E1 & R1 & G1 & T1 & S1 & C1 & X1); auto; [apply I|].
        rewrite E1. cbn [bind].
        assert (Gx : is_gen m x) by (destruct G as (t & s & c & key & p & T & Kd & _); exists t, s, (p_pid p); auto).
        assert (Ne : forall y, In y l -> snd y <> snd x).
        { intros y J Q. apply N1. pose proof (L x (or_introl eq_refl)) as Lx. pose proof (L y (or_intror J)) as Ly. destruct I as (((_ & _ & _ & W) & _) & _).
          apply W in Lx as (u & U1 & U2). apply W in Ly as (v & V1 & V2). assert (fst y = fst x) by (rewrite <- V2, <- U2; f_equal; rewrite Q in V1; congruence). apply in_map_iff. exists y. auto. }
        destruct (types_plain l m1) as (m' & E' & A1 & A2 & A3 & A4 & A5).
        { intros y J. destruct (skipped m y) eqn:Ky; [left; apply (skipped_mono m); [intros a Ha; rewrite T1; apply add_key_In; auto|exact Ky]|].
          destruct (H y (or_intror J)) as [Q|[P|Gy]]; [congruence| |].
          - right. destruct P as (t & c & T & C & P). exists t, c. split; [rewrite X1; auto|]. split; [|exact P]. rewrite C1; [exact C|]. apply kind_not_gen. intros s pid Kd.
            assert (x = y) as <- by (apply U; cbn; auto; exists t, s, pid; auto). apply N1. apply in_map. exact J.
          - exfalso. assert (x = y) as <- by (apply U; cbn; auto; destruct Gy as (t & s & c & key & p & T & Kd & _); exists t, s, (p_pid p); auto). apply N1. apply in_map. exact J. }
        exists m'. split; [exact E'|]. split; [rewrite A1; exact R1|]. intros y J Ky Gy. assert (y = x) as ->.
        { destruct J as [<-|J]; [reflexivity|]. symmetry. apply U; cbn; auto. destruct Gy as (t & s & c & key & p & T & Kd & _). exists t, s, (p_pid p). auto. }
        split; [|apply A5; exact S1]. destruct G1 as (t & s & c & key & p & T & Kd & C & P & Pa). exists t, s, c, key, p. unfold class_of in *. rewrite A2, A3, A4. auto.
      * destruct (plain_step m x K P) as (c & E1). rewrite E1. cbn [bind]. destruct (add_type_inv n0 orig m x _ O I E1) as (J1 & _).
        destruct (IH (store_class (store_type m (fst x)) c) k J1 N2) as (m' & E' & R' & G').
        { intros y J. exact (L y (or_intror J)). }
        { intros y J. destruct (H y (or_intror J)) as [Q|Q]; [left|right; exact Q]. apply (skipped_mono m); [|exact Q]. intros a Ha. cbn [store_class store_type m_tset]. apply add_key_In. auto. }
        { intros y z Jy Jz Gy Gz Ky Kz. assert (Mo : forall w, skipped (store_class (store_type m (fst x)) c) w = false -> skipped m w = false).
          { intros w Kw. destruct (skipped m w) eqn:Q; [|reflexivity]. rewrite <- Kw. symmetry. apply (skipped_mono m); [|exact Q]. intros a Ha. cbn [store_class store_type m_tset]. apply add_key_In. auto. }
          apply (U y z (or_intror Jy) (or_intror Jz) Gy Gz (Mo _ Ky) (Mo _ Kz)). }
        { exact R. }
        exists m'. split; [exact E'|]. split; [exact R'|]. intros y [<-|J] Ky Gy; [tauto|].
        apply G'; [exact J| |exact Gy]. unfold skipped in *. cbn [store_class store_type m_tset]. apply orb_false_elim in Ky as [Ky1 Ky2]. rewrite Ky1. cbn [orb].
        apply not_true_is_false. intros Q. apply existsb_exists in Q as (a & Ha & Qa). apply Z.eqb_eq in Qa as <-. apply add_key_In in Ha as [Ha|Ha].
        -- assert (existsb (Z.eqb (fst y)) (m_tset m) = true) by (apply existsb_exists; exists (fst y); split; [exact Ha|apply Z.eqb_refl]). congruence.
        -- apply N1. rewrite <- Ha. apply in_map. exact J.
Qed.

(** ** Classes *)
Lemma sum_incl : forall (f : Z -> nat) a b, NoDup a -> (forall x, In x a -> f x = 0%nat \/ In x b) -> (list_sum (map f a) <= list_sum (map f b))%nat.
Proof.
  intros f. induction a as [|x a IH]; intros b N H; cbn; [lia|]. inversion N as [|? ? N1 N2]; subst. destruct (H x (or_introl eq_refl)) as [Q|I].
  - rewrite Q. cbn. apply IH; [exact N2|]. intros y J. apply H. cbn. auto.
  - apply in_split in I as (b1 & b2 & ->). assert (L : (list_sum (map f a) <= list_sum (map f (b1 ++ b2)))%nat).
    { apply IH; [exact N2|]. intros y J. destruct (H y (or_intror J)) as [Q|I]; [auto|right]. apply in_or_app. apply in_app_or in I as [I|[I|I]]; [auto| |auto]. exfalso. apply N1. rewrite I. exact J. }
    rewrite !map_app, !list_sum_app in *. cbn [map list_sum fold_right]. unfold list_sum in *. cbn [fold_right]. lia.
Qed.
Lemma each_class_heap : forall h l m m', each (renew_for_class h) l m = Ok m' -> forall h', h' <> h -> nth_error (m_heap m') h' = nth_error (m_heap m) h'.
Proof.
  intros h. induction l as [|p l IH]; intros m m' E h' D; cbn [each] in E; [injection E as <-; reflexivity|].
  destruct (renew_for_class h m p) as [m1|] eqn:E1; [|discriminate]. cbn [bind] in E. rewrite (IH _ _ E h' D). unfold renew_for_class, renew in E1.
  destruct ((32768 <=? p_pid p) && _); [|injection E1 as <-; reflexivity]. destruct (next_free_pid _); [|discriminate]. cbn [bind] in E1. destruct (nth_error _ h); [|discriminate]. cbn [bind fst] in E1. injection E1 as <-.
  cbn [with_pids with_class m_heap]. apply upd_other. exact D.
Qed.
Lemma each_class_cset : forall h l m m', each (renew_for_class h) l m = Ok m' -> m_cset m' = m_cset m.
Proof.
  intros h. induction l as [|p l IH]; intros m m' E; cbn [each] in E; [injection E as <-; reflexivity|].
  destruct (renew_for_class h m p) as [m1|] eqn:E1; [|discriminate]. cbn [bind] in E. rewrite (IH _ _ E). unfold renew_for_class, renew in E1.
  destruct ((32768 <=? p_pid p) && _); [|injection E1 as <-; reflexivity]. destruct (next_free_pid _); [|discriminate]. cbn [bind] in E1. destruct (nth_error _ h); [|discriminate]. cbn [bind fst] in E1. injection E1 as <-. reflexivity.
Qed.
Definition skippedc (m : meta) (x : Z * nat) : bool := (fst x =? ROOT_CLASS) || existsb (Z.eqb (fst x)) (m_cset m).
Lemma classes_run : forall (f : Z -> nat) l m k, NoDup (map snd l) ->
  (forall x, In x l -> skippedc m x = true \/ exists c, nth_error (m_heap m) (snd x) = Some c /\ (dyns c <= f (fst x))%nat) ->
  room (m_pids m) (k + list_sum (map f (map fst l)))%nat -> exists m', each add_class l m = Ok m' /\ room (m_pids m') k.
Proof.
  intros f. induction l as [|x l IH]; intros m k N H R; cbn [each map] in *; [exists m; split; [reflexivity|eapply room_le; [exact R|lia]]|].
  inversion N as [|? ? N1 N2]; subst. unfold add_class at 1. fold (skippedc m x). destruct (skippedc m x) eqn:K.
  - cbn [bind]. apply (IH m k N2); [intros y J; apply H; cbn; auto|]. eapply room_le; [exact R|]. unfold list_sum. cbn [fold_right]. lia.
  - destruct (H x (or_introl eq_refl)) as [Q|(c & C & L)]; [congruence|]. rewrite C.
    destruct (each_class_runs (snd x) (props c) m (k + list_sum (map f (map fst l)))%nat) as (m1 & E1 & R1); [congruence|eapply room_le; [exact R|]; unfold dyns in L; unfold list_sum; cbn [fold_right]; lia|].
    rewrite E1. cbn [bind]. apply IH; [exact N2| |exact R1].
    intros y I. destruct (H y (or_intror I)) as [Q|(d & D & Ld)].
    + left. unfold skippedc in *. cbn [store_class m_cset]. rewrite (each_class_cset _ _ _ _ E1). apply orb_prop in Q as [Q|Q]; rewrite ?Q; [reflexivity|]. apply orb_true_iff. right.
      apply existsb_exists in Q as (b & Jb & Qb). apply existsb_exists. exists b. split; [apply add_key_In; auto|exact Qb].
    + right. exists d. split; [|exact Ld]. cbn [store_class m_heap]. rewrite (each_class_heap _ _ _ _ E1); [exact D|]. intros Q. apply N1. rewrite <- Q. apply in_map. exact I.
Qed.
Lemma same_dyns : forall c c', same_cdef c c' -> (dyns c' <= dyns c)%nat.
Proof.
  intros c c' (_ & F). unfold dyns, props. induction F as [|[k p] [k' p'] l l' (_ & _ & _ & _ & _ & _ & S) F IH]; [cbn; lia|]. cbn [map snd filter] in *. unfold dynb in *. cbn [snd] in S.
  destruct (Z.leb_spec 32768 (p_pid p')), (Z.leb_spec 32768 (p_pid p)); cbn [List.length] in *; try lia. 
Qed.
Lemma index_nodup : forall (V : Type) (d : list (Z * nat)) (g : nat -> option V) (auid : V -> Z), NoDup (map fst d) ->
  (forall x, In x d -> exists v, g (snd x) = Some v /\ auid v = fst x) -> NoDup (map snd d).
Proof.
  intros V. induction d as [|x d IH]; intros g auid N H; cbn [map] in *; [constructor|]. inversion N as [|? ? N1 N2]; subst. constructor.
  - intros I. apply in_map_iff in I as (y & Q & I). destruct (H x (or_introl eq_refl)) as (v & V1 & V2). destruct (H y (or_intror I)) as (w & W1 & W2). rewrite Q in W1. apply N1. rewrite <- V2.
    assert (w = v) as -> by congruence. rewrite W2. apply in_map. exact I.
  - eapply IH; [exact N2|]. intros y I. apply (H y). cbn. auto.
Qed.

(** ** What is used of the built-in model *)
Definition runnable (m : meta) : Prop :=
  (forall a t, type_of m a = Some t -> ~ In a ROOT_TYPES -> exists c, class_of m (fst (kind_class (t_kind t))) = Some c /\
     ((forall p, In p (props c) -> p_pid p < 32768) \/ exists s k p, t_kind t = KGenChar s (p_pid p) /\ c_props c = [(k, p)] /\ p_auid p = k)) /\
  (forall a t s pid b u s' pid', type_of m a = Some t -> t_kind t = KGenChar s pid -> type_of m b = Some u -> t_kind u = KGenChar s' pid' -> a = b) /\
  fst (m_pids m) = 65467 /\ (list_sum (map (fun a => match class_of m a with Some c => dyns c | None => 0%nat end) (map fst (m_cauid m))) <= 100)%nat /\
  (exists t c, type_of m 0x0110030000000000060e2b3401040101 = Some t /\ t_kind t = KGenChar 1 65468 /\ class_of m GENERICCHAR = Some c /\ exists k p, c_props c = [(k, p)] /\ p_auid p = k /\ p_pid p = 65468).
Definition isgenb (t : tdef) : bool := match t_kind t with KGenChar _ _ => true | _ => false end.
Definition type_runs (m : meta) (x : Z * nat) : bool :=
  match nth_error (m_theap m) (snd x) with
  | None => false
  | Some t => existsb (Z.eqb (fst x)) ROOT_TYPES ||
      match class_of m (fst (kind_class (t_kind t))) with
      | None => false
      | Some c => forallb (fun p => p_pid p <? 32768) (props c) || match t_kind t, c_props c with KGenChar s pid, [(k, p)] => (pid =? p_pid p) && (p_auid p =? k) | _ , _ => false end
      end
  end.
Definition one_gen (m : meta) (x : Z * nat) : bool :=
  match nth_error (m_theap m) (snd x) with Some t => if isgenb t then fst x =? 0x0110030000000000060e2b3401040101 else true | None => true end.
Definition runnableb (m : meta) : bool :=
  forallb (type_runs m) (m_tauid m) && forallb (one_gen m) (m_tauid m) && (fst (m_pids m) =? 65467) &&
  (list_sum (map (fun a => match class_of m a with Some c => dyns c | None => 0%nat end) (map fst (m_cauid m))) <=? 100)%nat &&
  match type_of m 0x0110030000000000060e2b3401040101, class_of m GENERICCHAR with Some t, Some c => match t_kind t, c_props c with KGenChar s pid, [(k, p)] => (s =? 1) && (pid =? 65468) && (p_auid p =? k) && (p_pid p =? 65468) | _, _ => false end | _, _ => false end.
Lemma base_runnable : forall m, base_model = Ok m -> runnable m.
Proof.
  assert (B : holds base_model runnableb = true) by (vm_compute; reflexivity). intros m H. pose proof (holds_ok _ _ _ B H) as S. clear B H.
  unfold runnableb in S. apply andb_prop in S as [S S5]. apply andb_prop in S as [S S4]. apply andb_prop in S as [S S3]. apply andb_prop in S as [S1 S2].
  assert (T : forall a t, type_of m a = Some t -> exists h, In (a, h) (m_tauid m) /\ nth_error (m_theap m) h = Some t).
  { intros a t H. unfold type_of in H. destruct (zget (m_tauid m) a) as [h|] eqn:Hz; [|discriminate]. exists h. split; [apply zget_In; exact Hz|exact H]. }
  split; [|split; [|split; [lia|split; [apply Nat.leb_le; exact S4|]]]].
  - intros a t H R. destruct (T _ _ H) as (h & I & E). rewrite forallb_forall in S1. apply S1 in I. unfold type_runs in I. cbn [fst snd] in I. rewrite E in I. apply orb_prop in I as [I|I].
    + exfalso. apply R. apply existsb_exists in I as (y & I & Q). apply Z.eqb_eq in Q as ->. exact I.
    + destruct (class_of m (fst (kind_class (t_kind t)))) as [c|]; [|discriminate]. exists c. split; [reflexivity|]. apply orb_prop in I as [I|I].
      * left. intros p Ip. rewrite forallb_forall in I. apply I in Ip. lia.
      * right. destruct (t_kind t) as [| | | | | | | | | | |s pid| | | |]; try discriminate. destruct (c_props c) as [|[k p] [|? ?]]; try discriminate. apply andb_prop in I as [I1 I2]. apply Z.eqb_eq in I1, I2. subst pid. exists s, k, p. auto.
  - assert (G : forall a t s pid, type_of m a = Some t -> t_kind t = KGenChar s pid -> a = 0x0110030000000000060e2b3401040101).
    { intros a t s pid H K. destruct (T _ _ H) as (h & I & E). rewrite forallb_forall in S2. apply S2 in I. unfold one_gen in I. cbn [fst snd] in I. rewrite E in I. unfold isgenb in I. rewrite K in I. lia. }
    intros a t s pid b u s' pid' H1 K1 H2 K2. rewrite (G _ _ _ _ H1 K1), (G _ _ _ _ H2 K2). reflexivity.
  - destruct (type_of m _) as [t|] eqn:Tt; [|discriminate]. destruct (class_of m GENERICCHAR) as [c|]; [|discriminate]. exists t, c. split; [reflexivity|].
    destruct (t_kind t) as [| | | | | | | | | | |s pid| | | |]; try discriminate. destruct (c_props c) as [|[k p] [|? ?]]; try discriminate.
    apply andb_prop in S5 as [S5 Q4]. apply andb_prop in S5 as [S5 Q3]. apply andb_prop in S5 as [Q1 Q2]. apply Z.eqb_eq in Q1, Q2, Q3, Q4. split; [congruence|]. split; [reflexivity|]. exists k, p. auto.
Qed.

(** ** Reading runs *)
Lemma load_room : forall m fc ft k, wf m -> fst (m_pids m) = 65467 -> zlen (flat_map dynamic_ids fc) <= 32000 -> (k <= 700)%nat -> room (m_pids (load m fc ft)) k.
Proof.
  intros m fc ft k W Q L K. destruct (load_ok m fc ft W) as (_ & _ & _ & L2 & L3 & _). set (used := flat_map dynamic_ids fc) in *.
  set (g := filter (fun x => negb (existsb (Z.eqb x) used)) (zseq 32768 32700)). exists g.
  assert (N : NoDup g) by (apply NoDup_filter, NoDup_zseq). split; [exact N|]. split.
  - assert (I : (List.length (zseq 32768 32700) <= List.length (g ++ used))%nat).
    { apply NoDup_incl_length; [apply NoDup_zseq|]. intros x I. apply in_or_app. destruct (existsb (Z.eqb x) used) eqn:E; [right; apply existsb_exists in E as (y & J & E); apply Z.eqb_eq in E as ->; exact J|left]. apply filter_In. split; [exact I|]. rewrite E. reflexivity. }
    rewrite app_length in I. assert (Z1 : zlen (zseq 32768 32700) = 32700) by (apply zlen_zseq; lia). unfold zlen in Z1, L. lia.
  - intros x I. apply filter_In in I as [I E]. apply In_zseq in I. rewrite L2, Q. split; [lia|]. intros J. apply L3 in J as (c & Ic & J). apply negb_true_iff in E.
    assert (existsb (Z.eqb x) used = true) by (apply existsb_exists; exists x; split; [apply in_flat_map; exists c; auto|apply Z.eqb_refl]). congruence.
Qed.
Lemma reads : forall m fc ft, start m -> runnable m -> sound_file fc ft -> complete m fc ft -> zlen (flat_map dynamic_ids fc) <= 32000 ->
  exists m', read_dictionary true m fc ft = Ok m' /\
    (~ In GENERICCHAR (map c_auid fc) -> ~ In 0x0110030000000000060e2b3401040101 (map t_auid ft) ->
     exists t s c k p, type_of m' 0x0110030000000000060e2b3401040101 = Some t /\ t_kind t = KGenChar s (p_pid p) /\ class_of m' GENERICCHAR = Some c /\ c_props c = [(k, p)]).
Proof.
  intros m fc ft S (R1 & R2 & R3 & R4 & R5) F Cm L. pose proof S as (W & _ & N1 & N2 & _). pose proof (load_merge_inv m fc ft S F) as I0. pose proof (orig_fun m fc S) as O.
  destruct (load_ok m fc ft W) as (W' & L1 & L2 & L3 & _ & L5 & _ & _ & _ & L9 & _ & L11 & _). destruct (load_keys_In m fc ft S) as [KC KT]. destruct (load_keys m fc ft N1 N2) as [NC NT].
  pose proof (load_room m fc ft 200 W R3 L) as Rm. set (n0 := fst (m_pids m)) in *. set (l := load m fc ft) in *. set (orig := orig_id m fc) in *. pose proof F as (F1 & _).
  assert (RT : forall a, existsb (Z.eqb a) ROOT_TYPES = false -> ~ In a ROOT_TYPES).
  { intros a H H1. assert (existsb (Z.eqb a) ROOT_TYPES = true) by (apply existsb_exists; exists a; split; [exact H1|apply Z.eqb_refl]). congruence. }
  assert (Sk : forall x, skipped l x = false -> ~ In (fst x) ROOT_TYPES /\ ~ In (fst x) (map t_auid ft)).
  { intros x K. unfold skipped in K. apply orb_false_elim in K as [K1 K2]. split; [apply RT; exact K1|]. rewrite <- L2. intros H. assert (existsb (Z.eqb (fst x)) (m_tset l) = true) by (apply existsb_exists; exists (fst x); split; [exact H|apply Z.eqb_refl]). congruence. }
  assert (Ty : forall x, In x (m_tauid l) -> skipped l x = false -> exists t, nth_error (m_theap l) (snd x) = Some t /\ type_of m (fst x) = Some t).
  { intros x I K. pose proof (KT x I) as Hz. pose proof W' as (_ & _ & _ & W4). destruct (W4 _ _ Hz) as (t & T & _). exists t. split; [exact T|]. rewrite <- (L5 _ (proj2 (Sk x K))). unfold type_of. rewrite Hz. exact T. }
  assert (Cl : forall x, In x (m_tauid l) -> skipped l x = true \/ plain_type l x \/ gen_type l x).
  { intros x I. destruct (skipped l x) eqn:K; [auto|right]. destruct (Ty x I K) as (t & T & Tm). destruct (Sk x K) as [Sk1 Sk2]. destruct (R1 _ _ Tm Sk1) as (c & C & P).
    destruct (in_dec Z.eq_dec (fst (kind_class (t_kind t))) (map c_auid fc)) as [J|J].
    - left. apply in_map_iff in J as (d & Ed & J). exists t, (read_class d). split; [exact T|]. split; [rewrite <- Ed; apply L11; auto|]. intros p Ip.
      destruct (Z_lt_ge_dec (p_pid p) 32768) as [Hlt|Hge]; [exact Hlt|exfalso]. apply Sk2. apply (Cm (fst x) t d p Tm); auto; [intros Eq|intros Eq|lia]; apply Sk1; rewrite Eq; cbn; auto.
    - rewrite <- (L9 _ J) in C. destruct P as [P|(s & k & p & P1 & P2 & P3)]; [left; exists t, c; auto|right]. exists t, s, c, k, p. rewrite P1 in C. cbn [kind_class fst] in C. auto. }
  destruct (types_run n0 orig O (m_tauid l) l 199 I0 NT KT Cl) as (m1 & E1 & Rm1 & G1).
  { intros x y Ix Iy Gx Gy Kx Ky. destruct (Ty x Ix Kx) as (t & T & Tm). destruct (Ty y Iy Ky) as (u & U & Um). destruct Gx as (t' & s & pid & T' & Kt). destruct Gy as (u' & s' & pid' & U' & Ku).
    assert (t' = t) as -> by congruence. assert (u' = u) as -> by congruence. pose proof (R2 _ _ _ _ _ _ _ _ Tm Kt Um Ku) as Q. apply KT in Ix, Iy. rewrite Q in Ix. destruct x as [x1 x2], y as [y1 y2]. cbn [fst snd] in *. congruence. }
  { apply Rm. lia. }
  destruct (each_types n0 orig O _ _ _ I0 E1) as (A1 & A2 & A3 & A4 & _). pose proof A2 as (O1 & O2 & O3 & O4 & O5 & O6).
  set (f := fun a => match class_of m a with Some c => dyns c | None => 0%nat end) in *.
  assert (Heap : forall x, In x (m_cauid l) -> exists c, nth_error (m_heap l) (snd x) = Some c /\ c_auid c = fst x) by (intros x I; apply KC in I; pose proof W' as (_ & W2 & _); apply W2; exact I).
  destruct (classes_run f (m_cauid l) m1 99) as (m2 & E2 & Rm2).
  { eapply index_nodup with (g := nth_error (m_heap l)) (auid := c_auid); [exact NC|exact Heap]. }
  { intros x I. destruct (skippedc m1 x) eqn:K; [auto|right]. destruct (Heap x I) as (c & C & Ca). destruct (O5 _ _ C) as (c' & C' & Sc). exists c'. split; [exact C'|].
    assert (Nf : ~ In (fst x) (map c_auid fc)).
    { rewrite <- L1. intros H. apply A3 in H. unfold skippedc in K. apply orb_false_elim in K as [_ K]. assert (existsb (Z.eqb (fst x)) (m_cset m1) = true) by (apply existsb_exists; exists (fst x); split; [exact H|apply Z.eqb_refl]). congruence. }
    unfold f. rewrite <- (L9 _ Nf). unfold class_of. fold l. rewrite (KC x I), C. apply same_dyns. exact Sc. }
  { eapply room_le; [exact Rm1|].
    assert (Sm : (list_sum (map f (map fst (m_cauid l))) <= list_sum (map f (map fst (m_cauid m))))%nat).
    { apply sum_incl; [exact NC|]. intros a _. unfold f, class_of. destruct (zget (m_cauid m) a) as [h|] eqn:Hz; [right; apply zget_In in Hz; apply (in_map fst) in Hz; exact Hz|auto]. }
    lia. }
  exists m2. split; [unfold read_dictionary; fold l; rewrite E1; cbn [bind]; rewrite O2; exact E2|].
  intros Nc Nt. destruct R5 as (t & c & T & Kt & C & k & p & P & Pa & Pp). rewrite <- (L5 _ Nt) in T. rewrite <- (L9 _ Nc) in C. unfold type_of in T. fold l in T, C.
  destruct (zget (m_tauid l) 0x0110030000000000060e2b3401040101) as [h|] eqn:Hz; [|discriminate]. pose proof (zget_In _ _ _ _ Hz) as Ix.
  destruct (G1 _ Ix) as ((t1 & s1 & c1 & k1 & p1 & T1 & Kt1 & C1 & P1 & _) & Sc).
  { unfold skipped. rewrite L2. cbn [fst]. apply orb_false_intro; [reflexivity|]. apply not_true_is_false. intros Q. apply existsb_exists in Q as (y & J & Q). apply Z.eqb_eq in Q as <-. auto. }
  { exists t, 1, c, k, p. rewrite Pp. auto. }
  destruct (each_classes n0 orig O _ _ _ A1 (fun x Ix => eq_trans (f_equal (fun d => zget d (fst x)) O2) (KC x Ix)) E2) as (_ & (_ & _ & _ & Q4 & _) & _ & _ & _ & _ & B7).
  exists t1, s1, c1, k1, p1. split; [unfold type_of; rewrite Q4, O4, Hz, (each_classes_theap _ _ _ E2); exact T1|]. split; [exact Kt1|]. split; [rewrite (B7 _ Sc); exact C1|exact P1].
Qed.

(** ** C67: opening succeeds *)

(** Opening a sound file for writing never fails: at most 32000 dynamic ids in the file leave enough for
    the built-in definitions the file lacks. *)
Theorem C67_opens : forall w m fc ft, base_model = Ok m -> sound_file fc ft -> complete m fc ft -> zlen (flat_map dynamic_ids fc) <= 32000 ->
  exists m', read_dictionary w m fc ft = Ok m'.
Proof.
  intros w m fc ft B F Cm L. destruct w; [|eexists; reflexivity]. destruct (reads m fc ft (base_start m B) (base_runnable m B) F Cm L) as (m' & E & _). exists m'. exact E.
Qed.
Print Assumptions C67_opens.

(** The built-in character type, in a file that has neither it nor its class: whatever ids the file uses,
    the type keeps its size under the id that its class has for it. *)
Theorem C67_char : forall m fc ft m', base_model = Ok m -> sound_file fc ft -> complete m fc ft -> zlen (flat_map dynamic_ids fc) <= 32000 ->
  ~ In GENERICCHAR (map c_auid fc) -> ~ In 0x0110030000000000060e2b3401040101 (map t_auid ft) -> read_dictionary true m fc ft = Ok m' ->
  exists t s c k p, type_of m' 0x0110030000000000060e2b3401040101 = Some t /\ t_kind t = KGenChar s (p_pid p) /\ class_of m' GENERICCHAR = Some c /\ c_props c = [(k, p)].
Proof.
  intros m fc ft m' B F Cm L Nc Nt E. destruct (reads m fc ft (base_start m B) (base_runnable m B) F Cm L) as (m2 & E2 & G). rewrite E in E2. injection E2 as <-. apply G; auto.
Qed.
Print Assumptions C67_char.
