(** C30, C31: strong reference vectors. *)
From Verif Require Import Base BaseFacts Text TextFacts ObjModel PropsObj TimelineFacts VecModel VecFacts.
From Coq Require Import ZArith List Bool Lia.
Import ListNotations.
Open Scope Z_scope.
Open Scope m_scope.

(** ** Specification: a Python list of objects

    [l_els] is the list, [l_att] says whether the vector's owner is part of the file, [l_busy] which objects
    are attached at some other place in the file. *)
Section Spec.
Variable okclass okroot : Z -> bool.

Definition has_dir (l : lst) (v : Z) : bool := l_busy l v || (l_att l && existsb (Z.eqb v) (l_els l)).
Definition with_els (l : lst) (e : list Z) : lst := Lst (l_att l) (l_reg l) e (l_busy l).

(** The values an extend refuses: the first offending object decides *)
Fixpoint refuse (l : lst) (vs : list Z) : option err :=
  match vs with
  | [] => None
  | v :: r => if negb (okclass v) then Some AssertionError else if negb (okroot v) || has_dir l v then Some AttachError else refuse l r
  end.
Definition ext (l : lst) (vs : list Z) : lst * result out :=
  match refuse l vs with
  | Some e => (l, Err e)
  | None => (Lst (l_att l) true (l_els l ++ vs) (l_busy l), Ok RUnit)
  end.

Definition spec (o : op) (l : lst) : lst * result out :=
  let e := l_els l in
  let n := zlen e in
  match o with
  | OGet i => (l, Ok (RObj (znth e (norm n i))))
  | OItem i => (l, match znth e (norm n i) with Some x => Ok (RObj (Some x)) | None => Err IndexError end)
  | OLen => (l, Ok (RInt n))
  | OIter => (l, Ok (RList e))
  | OSet i v =>
    if n <=? i then (l, Err IndexError) else if negb (okroot v) || has_dir l v then (l, Err AttachError)
    else (with_els l (zupd e (norm n i) v), Ok RUnit)
  | OPop i =>
    match znth e (norm n i) with
    | Some x => (with_els l (ztake (norm n i) e ++ zdrop (norm n i + 1) e), Ok (RObj (Some x)))
    | None => (l, Err IndexError)
    end
  | OInsert i v => if negb (okclass v) then (l, Err AssertionError) else (with_els l (ztake i e ++ [v] ++ zdrop i e), Ok RUnit)
  | OExtend vs => ext l vs
  | OClear => (with_els l [], Ok RUnit)
  | OValue vs => ext (with_els l []) vs
  | OGc _ => (l, Ok RUnit)
  | OAttach _ => if l_att l then (l, Err AttachError) else (Lst true (l_reg l) e (l_busy l), Ok RUnit)
  | ODetach => (Lst false (l_reg l) e (l_busy l), Ok RUnit)
  | OEnv x d => (Lst (l_att l) (l_reg l) e (upd (l_busy l) x (match d with None => false | Some _ => true end)), Ok RUnit)
  end.

(** The uses covered: no index before the first element, insert with an index of the list into a vector
    its owner knows, of an object that has no place yet; an object is not put twice into a vector that is
    not part of the file (once it is, the code refuses). *)
Definition allowed (o : op) (l : lst) : Prop :=
  let e := l_els l in
  let n := zlen e in
  match o with
  | OGet i | OItem i | OPop i => - n <= i
  | OSet i v => - n <= i /\ (l_att l = false -> In v e -> znth e (norm n i) = Some v)
  | OInsert i v => 0 <= i <= n /\ l_reg l = true /\ ~ In v e /\ l_busy l v = false
  | OExtend vs => NoDup vs /\ (l_att l = false -> forall v, In v vs -> ~ In v e)
  | OValue vs => NoDup vs
  | OEnv x _ => ~ In x e
  | _ => True
  end.
Fixpoint spec_run (ops : list op) (l : lst) : lst * list (result out) :=
  match ops with
  | [] => (l, [])
  | o :: r => let '(l1, x) := spec o l in let '(l2, xs) := spec_run r l1 in (l2, x :: xs)
  end.
Fixpoint all_allowed (ops : list op) (l : lst) : Prop :=
  match ops with [] => True | o :: r => allowed o l /\ all_allowed r (fst (spec o l)) end.

(** ** Each operation *)

Lemma odir_has_dir : forall s l v, rel s l -> (match v_odir s v with None => false | Some _ => true end) = has_dir l v.
Proof.
  intros s l v R. unfold has_dir. destruct (existsb (Z.eqb v) (l_els l)) eqn:E.
  - apply existsb_exists in E. destruct E as (x & Hx & Ex). assert (x = v) by lia. subst x. destruct (In_znth _ _ _ Hx) as (i & Hi & Hz). pose proof (r_in _ _ R) as I.
    destruct (l_att l) eqn:A.
    + destruct (znth_in_range _ (v_refs s) i) as (k & Hk); [rewrite (r_len _ _ R); lia|]. destruct (I i k v Hk Hz) as [_ ->]. cbn. destruct (l_busy l v); auto.
    + destruct (I i v Hz) as [_ ->]. rewrite andb_false_l, orb_false_r, (r_busy _ _ R); auto.
  - assert (~ In v (l_els l)). { intros C. assert (existsb (Z.eqb v) (l_els l) = true) by (apply existsb_exists; exists v; split; auto; apply Z.eqb_refl). congruence. }
    rewrite andb_false_r, orb_false_r. pose proof (r_out _ _ R v H) as O. destruct (v_odir s v) as [[|]|]; auto. destruct O.
Qed.

Lemma get_rel : forall s l i, rel s l -> - zlen (l_els l) <= i -> exists s', v_get i s = (s', Ok (znth (l_els l) (norm (zlen (l_els l)) i))) /\ rel s' l /\
  (i < zlen (l_els l) -> v_objs s' (norm (zlen (l_els l)) i) = znth (l_els l) (norm (zlen (l_els l)) i)).
Proof.
  intros s l i R H. destruct (get_ok s (l_els l) i (r_len _ _ R) (r_coh _ _ R) (rel_readable _ _ R) H) as (s' & E & G & O). exists s'. split; auto. split; auto. eapply rel_grown; eauto.
Qed.
Lemma iter_rel : forall s l, rel s l -> exists s', v_iter s = (s', Ok (l_els l)) /\ rel s' l /\ (forall i o, znth (l_els l) i = Some o -> v_objs s' i = Some o).
Proof.
  intros s l R. destruct (iter_ok s (l_els l) (r_len _ _ R) (r_coh _ _ R) (rel_readable _ _ R)) as (s' & E & G & O). exists s'. split; auto. split; auto. eapply rel_grown; eauto.
Qed.

Lemma norm_eq : forall n i, - n <= i -> (if i <? 0 then Z.max 0 (n + i) else i) = norm n i.
Proof. intros n i H. unfold norm. destruct (i <? 0) eqn:?; lia. Qed.
Lemma norm_range : forall n i, - n <= i < n -> 0 <= norm n i < n.
Proof. intros n i H. unfold norm. destruct (i <? 0) eqn:?; lia. Qed.

Lemma set_rel : forall s l i v, rel s l -> allowed (OSet i v) l -> exists s', run_op okclass okroot (OSet i v) s = (s', snd (spec (OSet i v) l)) /\ rel s' (fst (spec (OSet i v) l)).
Proof.
  intros s l i v R [Hi Hv]. cbn [run_op spec]. unfold lift, mbind at 1, v_setitem. rewrite (r_len _ _ R), norm_eq by auto. set (n := zlen (l_els l)) in *.
  destruct (n <=? i) eqn:En.
  { replace (n <=? norm n i) with true by (unfold norm; destruct (i <? 0) eqn:?; lia). exists s. auto. }
  pose proof (norm_range n i ltac:(lia)) as B. replace (n <=? norm n i) with false by lia. destruct (okroot v) eqn:Er; cbn [negb orb]; [|exists s; auto].
  pose proof (odir_has_dir s l v R) as D. destruct (v_odir s v) eqn:Ed; [rewrite <- D; exists s; auto|]. rewrite <- D. cbn [fst snd].
  set (j := norm n i) in *. destruct (get_rel s l j R) as (s1 & G & R1 & O); [lia|]. assert (Nj : norm (zlen (l_els l)) j = j) by (unfold norm; destruct (j <? 0) eqn:?; lia). rewrite Nj in *.
  unfold mbind at 1. rewrite G. destruct (znth_in_range _ (l_els l) j B) as (o & Ho). rewrite Ho in *. specialize (O ltac:(lia)).
  assert (Od : v_odir s1 v = None). { pose proof (odir_has_dir s1 l v R1) as D1. rewrite <- D in D1. destruct (v_odir s1 v); auto; discriminate. }
  unfold mbind, obj_detach, modify at 1. unfold modify.
  set (s2 := w_objs _ _).
  assert (Hin : In v (l_els l) -> l_att l = false /\ o = v).
  { intros I. assert (A : l_att l = false). { destruct (l_att l) eqn:A; auto. exfalso. unfold has_dir in D. rewrite A in D. cbn in D. replace (existsb (Z.eqb v) (l_els l)) with true in D. { destruct (l_busy l v); discriminate. } symmetry. apply existsb_exists. exists v. split; auto. apply Z.eqb_refl. }
    split; auto. specialize (Hv A I). congruence. }
  assert (Bv : l_busy l v = false) by (unfold has_dir in D; destruct (l_busy l v); auto; discriminate).
  destruct (finish s2 (zupd (l_els l) j v) (l_busy l) (l_reg l)) as (s' & E & R').
  - exact (r_reg _ _ R1).
  - rewrite zlen_zupd. exact (r_len _ _ R1).
  - destruct (znth_split _ _ _ _ Ho) as (a & b & El & La). rewrite El, <- La, zupd_split. pose proof (r_els _ _ R) as N. rewrite El in N. apply NoDup_remove in N. destruct N as [N1 N2].
    eapply Permutation.Permutation_NoDup; [apply Permutation.Permutation_middle|]. constructor; auto. intros C. destruct Hin as [_ Hov]. { rewrite El. apply in_app_iff in C. apply in_app_iff. cbn. tauto. } subst o. auto.
  - exact (r_refs _ _ R1).
  - exact (r_keys _ _ R1).
  - exact (r_next _ _ R1).
  - intros x y Hx. cbn in Hx. destruct (Z.eq_dec x j) as [->|].
    + rewrite upd_same in Hx. rewrite znth_zupd_same by auto. auto.
    + rewrite upd_other in Hx by auto. rewrite znth_zupd_other by auto. apply (r_coh _ _ R1). auto.
  - intros _. apply (r_own _ _ R). intros C. rewrite C in Ho. apply znth_Some in Ho. cbn in Ho. lia.
  - intros x Hx. destruct (In_znth _ _ _ Hx) as (y & Hy & Hz). destruct (Z.eq_dec y j) as [->|]; [rewrite znth_zupd_same in Hz by (rewrite zlen_zupd in Hy; auto); congruence|]. rewrite znth_zupd_other in Hz by auto. apply (r_busy _ _ R). eapply znth_In; eauto.
  - intros x Hx. cbn. destruct (Z.eq_dec x o) as [->|].
    + rewrite upd_same. apply (r_busy _ _ R). eapply znth_In; eauto.
    + rewrite upd_other by auto. apply (r_out _ _ R1). intros C. apply Hx. destruct (In_znth _ _ _ C) as (y & Hy & Hz). apply (znth_In _ _ y). rewrite znth_zupd_other; auto. intros ->. congruence.
  - cbn. pose proof (r_in _ _ R1) as I. rewrite (r_att _ _ R1). destruct (l_att l) eqn:A.
    + intros y k x Hk Hx. destruct (Z.eq_dec y j) as [->|].
      * rewrite znth_zupd_same in Hx by auto. assert (x = v) by congruence. subst x. right. split; cbn; [apply upd_same|]. destruct (Z.eq_dec v o) as [->|]; [apply upd_same|rewrite upd_other; auto].
      * rewrite znth_zupd_other in Hx by auto. left. destruct (I y k x Hk Hx) as [S1 S2]. split; cbn; auto. rewrite upd_other; auto. intros ->. assert (y = j) by (eapply znth_inj; eauto; apply (r_els _ _ R)). lia.
    + intros y x Hx. destruct (Z.eq_dec y j) as [->|].
      * rewrite znth_zupd_same in Hx by auto. assert (x = v) by congruence. subst x. split; cbn; [apply upd_same|]. destruct (Z.eq_dec v o) as [->|]; [apply upd_same|rewrite upd_other; auto].
      * rewrite znth_zupd_other in Hx by auto. destruct (I y x Hx) as [S1 S2]. split; cbn; [rewrite upd_other; auto|]. destruct (Z.eq_dec x o) as [->|]; [apply upd_same|rewrite upd_other; auto].
  - rewrite E. exists s'. split; [reflexivity|]. cbn in R'. rewrite (r_att _ _ R1) in R'. exact R'.
Qed.

Lemma pop_rel : forall s l i, rel s l -> - zlen (l_els l) <= i -> exists s', run_op okclass okroot (OPop i) s = (s', snd (spec (OPop i) l)) /\ rel s' (fst (spec (OPop i) l)).
Proof.
  intros s l i R Hi. cbn [run_op spec]. unfold lift, mbind at 1, v_pop. destruct (get_rel s l i R Hi) as (s1 & G & R1 & O). unfold mbind at 1. rewrite G. set (n := zlen (l_els l)) in *. set (j := norm n i) in *.
  destruct (znth (l_els l) j) as [o|] eqn:Ho.
  2:{ exists s1. auto. }
  pose proof (znth_Some _ _ _ _ Ho) as B. cbn [fst snd]. assert (Hin : i < n) by (unfold j, norm in B; destruct (i <? 0) eqn:?; lia).
  rewrite (r_len _ _ R1). fold n. rewrite (norm_eq n i) by auto. fold j. rewrite O by auto. rewrite Z.eqb_refl.
  unfold mbind, obj_detach, modify, ret. eexists. split; [reflexivity|].
  fold (list_pop (l_els l) j). assert (Bj : 0 <= j < zlen (v_refs s1)) by (rewrite (r_len _ _ R1); auto).
  constructor; cbn [v_att v_reg v_refs v_next v_objs v_store v_odir w_odir w_objs w_refs l_att l_reg l_els l_busy with_els]; try apply R1.
  - rewrite !zlen_pop by auto. rewrite (r_len _ _ R1). auto.
  - apply pop_NoDup; auto. apply R1.
  - apply pop_NoDup; auto. apply R1.
  - pose proof (r_keys _ _ R1) as K. unfold list_pop. apply Forall_app. split; [apply Forall_ztake|apply Forall_zdrop]; auto.
  - intros x y Hx. cbn in Hx. rewrite znth_pop by auto. destruct (x <? j); apply (r_coh _ _ R1); auto.
  - intros _. apply (r_own _ _ R1). intros C. rewrite C in B. cbn in B. lia.
  - intros x Hx. apply (r_busy _ _ R1). apply (pop_In _ _ _ _ Ho) in Hx; [tauto|apply R1].
  - intros x Hx. destruct (Z.eq_dec x o) as [->|].
    + rewrite upd_same. apply (r_busy _ _ R1). eapply znth_In; eauto.
    + rewrite upd_other by auto. apply (r_out _ _ R1). intros C. apply Hx. apply (pop_In _ _ _ _ Ho); auto. apply R1.
  - pose proof (r_in _ _ R1) as I. destruct (l_att l).
    + intros y k x Hk Hx. rewrite znth_pop in Hk, Hx by auto. assert (Hz : exists z, z <> j /\ znth (v_refs s1) z = Some k /\ znth (l_els l) z = Some x).
      { destruct (y <? j) eqn:?; [exists y|exists (y + 1)]; split; auto; lia. }
      destruct Hz as (z & Hz & Hk' & Hx'). destruct (I z k x Hk' Hx') as [S1 S2]. split; cbn; auto. rewrite upd_other; auto. intros ->. apply Hz. eapply znth_inj; eauto. apply R1.
    + intros y x Hx. rewrite znth_pop in Hx by auto. assert (Hz : exists z, z <> j /\ znth (l_els l) z = Some x /\ z = (if y <? j then y else y + 1)).
      { destruct (y <? j) eqn:?; [exists y|exists (y + 1)]; split; auto; lia. }
      destruct Hz as (z & Hz & Hx' & Ez). destruct (I z x Hx') as [S1 S2]. split; cbn.
      * destruct (y <? j); subst z; auto.
      * destruct (Z.eq_dec x o) as [->|]; [apply upd_same|rewrite upd_other; auto].
Qed.

Lemma insert_rel : forall s l i v, rel s l -> allowed (OInsert i v) l -> exists s', run_op okclass okroot (OInsert i v) s = (s', snd (spec (OInsert i v) l)) /\ rel s' (fst (spec (OInsert i v) l)).
Proof.
  intros s l i v R (Hi & Hr & Hv & Hb). cbn [run_op spec]. unfold lift, mbind at 1, v_insert. destruct (okclass v); cbn [negb]; [|exists s; auto].
  set (s1 := w_objs _ _). cbn [fst snd]. assert (Lr : 0 <= i <= zlen (v_refs s)) by (rewrite (r_len _ _ R); auto).
  assert (Er : v_refs s1 = ins (v_refs s) i (v_next s)). { cbn. unfold list_insert, ins. replace (i <? 0) with false by lia. rewrite Z.min_l by lia. auto. }
  assert (Hk : ~ In (v_next s) (v_refs s)). { intros C. pose proof (r_keys _ _ R) as K. rewrite Forall_forall in K. apply K in C. lia. }
  assert (Hd : v_odir s v = None). { pose proof (r_out _ _ R v Hv) as X. destruct (v_odir s v) as [[|]|]; auto; [destruct X|congruence]. }
  fold (ins (l_els l) i v).
  destruct (finish s1 (ins (l_els l) i v) (l_busy l) (l_reg l)) as (s' & E & R').
  - apply R.
  - rewrite Er, !zlen_ins, (r_len _ _ R). auto.
  - apply ins_NoDup; auto. apply R.
  - rewrite Er. apply ins_NoDup; auto. apply R.
  - rewrite Er, Forall_forall. intros k Hk'. apply ins_In in Hk'. pose proof (r_keys _ _ R) as K. rewrite Forall_forall in K. cbn. destruct Hk' as [->|Hk'].
    + pose proof (r_next _ _ R). lia.
    + apply K in Hk'. lia.
  - cbn. pose proof (r_next _ _ R). lia.
  - intros x y Hx. rewrite znth_ins by auto. cbn in Hx. destruct (x =? i); auto. destruct (i <? x); apply (r_coh _ _ R); auto.
  - auto.
  - intros x Hx. apply ins_In in Hx. destruct Hx as [->|Hx]; auto. apply (r_busy _ _ R); auto.
  - intros x Hx. apply (r_out _ _ R). intros C. apply Hx. apply ins_In. auto.
  - cbn. pose proof (r_in _ _ R) as I. rewrite (r_att _ _ R). destruct (l_att l).
    + intros y k x Hky Hx. change (list_insert (v_refs s) i (v_next s)) with (v_refs s1) in Hky. rewrite Er in Hky. rewrite znth_ins in Hky, Hx by auto. destruct (y =? i) eqn:E1.
      * right. assert (x = v) by congruence. subst. split; cbn; auto. rewrite E1. auto.
      * left. destruct (i <? y); apply (I _ _ _ Hky Hx).
    + intros y x Hx. rewrite znth_ins in Hx by auto. split; cbn.
      * destruct (y =? i); auto. destruct (i <? y); apply (I _ _ Hx).
      * destruct (y =? i); [congruence|]. destruct (i <? y); apply (I _ _ Hx).
  - rewrite E. exists s'. split; [reflexivity|]. cbn in R'. rewrite (r_att _ _ R) in R'. exact R'.
Qed.

Lemma check_rel : forall s l vs, rel s l -> extend_check okclass okroot vs s = (s, match refuse l vs with Some e => Err e | None => Ok tt end) /\
  (refuse l vs = None -> Forall (fun v => v_odir s v = None /\ has_dir l v = false) vs).
Proof.
  intros s l vs R. induction vs as [|v vs [IH1 IH2]]; cbn; [split; auto|]. pose proof (odir_has_dir s l v R) as D.
  destruct (okclass v); cbn [negb]; [|split; [auto|discriminate]]. destruct (okroot v); cbn [negb orb]; [|split; [auto|discriminate]].
  destruct (v_odir s v) eqn:E; rewrite <- D; [split; [auto|discriminate]|]. split; auto.
Qed.
Lemma add_ok : forall vs s, exists c, extend_add vs s = (w_next (v_next s + zlen vs) (w_objs c (w_refs (v_refs s ++ zseq (v_next s) (zlen vs)) s)), Ok tt) /\
  (forall i, c i = match (if zlen (v_refs s) <=? i then znth vs (i - zlen (v_refs s)) else None) with Some v => Some v | None => v_objs s i end).
Proof.
  induction vs as [|v vs IH]; intros s.
  - exists (v_objs s). cbn. split. { rewrite app_nil_r, Z.add_0_r. destruct s; reflexivity. } intros i. destruct (_ <=? _); auto. unfold znth. destruct (_ && _); auto. destruct (Z.to_nat _); auto.
  - cbn [extend_add]. unfold mbind, modify. set (s1 := w_next _ _). destruct (IH s1) as (c & E & H). rewrite E. exists c. rewrite zlen_cons. pose proof (zlen_nonneg _ vs) as Hn. split.
    + unfold s1. cbn. unfold w_next, w_objs, w_refs; cbn. rewrite <- app_assoc. cbn [app]. rewrite zseq_cons by lia. rewrite (Z.add_comm (zlen vs) 1). rewrite <- Z.add_assoc. reflexivity.
    + intros i. rewrite H. unfold s1. cbn. rewrite zlen_app. change (zlen [v_next s]) with 1. pose proof (zlen_nonneg _ (v_refs s)).
      destruct (zlen (v_refs s) + 1 <=? i) eqn:E1.
      * replace (zlen (v_refs s) <=? i) with true by lia. change (v :: vs) with ([v] ++ vs). rewrite (znth_app2 _ [v]) by (change (zlen [v]) with 1; lia). change (zlen [v]) with 1. replace (i - zlen (v_refs s) - 1) with (i - (zlen (v_refs s) + 1)) by lia.
        rewrite upd_other by lia. auto.
      * destruct (zlen (v_refs s) <=? i) eqn:E2.
        { replace i with (zlen (v_refs s)) by lia. rewrite upd_same, Z.sub_diag. reflexivity. }
        { rewrite upd_other by lia. auto. }
Qed.

Lemma extend_rel : forall s l vs, rel s l -> NoDup vs -> (l_att l = false -> forall v, In v vs -> ~ In v (l_els l)) ->
  exists s', v_extend okclass okroot vs s = (s', match snd (ext l vs) with Ok _ => Ok tt | Err e => Err e end) /\ rel s' (fst (ext l vs)).
Proof.
  intros s l vs R N Hd. unfold v_extend. destruct (check_rel s l vs R) as [E1 E2]. unfold mbind at 1. rewrite E1. unfold ext. destruct (refuse l vs) as [e|]; [exists s; auto|]. specialize (E2 eq_refl).
  unfold mbind at 1. destruct (add_ok vs s) as (c & E & Hc). rewrite E. unfold mbind, modify. set (s1 := w_reg _ _). cbn [fst snd].
  assert (Dis : forall v, In v vs -> ~ In v (l_els l)).
  { intros v Hv C. destruct (l_att l) eqn:A; [|apply (Hd eq_refl v Hv C)]. rewrite Forall_forall in E2. destruct (E2 v Hv) as [_ X]. unfold has_dir in X. rewrite A in X. cbn in X.
    replace (existsb (Z.eqb v) (l_els l)) with true in X. { destruct (l_busy l v); discriminate. } symmetry. apply existsb_exists. exists v. split; auto. apply Z.eqb_refl. }
  pose proof (zlen_nonneg _ vs) as Hn. pose proof (r_next _ _ R) as Hnext. rewrite Forall_forall in E2.
  assert (Bv : forall v, In v vs -> l_busy l v = false). { intros v Hv. destruct (E2 v Hv) as [_ X]. unfold has_dir in X. destruct (l_busy l v); auto; discriminate. }
  assert (Cold : forall i o, znth (l_els l) i = Some o -> c i = v_objs s i).
  { intros i o Ho. rewrite Hc. pose proof (znth_Some _ _ _ _ Ho). replace (zlen (v_refs s) <=? i) with false by (rewrite (r_len _ _ R); lia). auto. }
  assert (Cnew : forall i v, zlen (l_els l) <= i -> znth vs (i - zlen (l_els l)) = Some v -> c i = Some v).
  { intros i v Hi Hv. rewrite Hc, (r_len _ _ R). replace (zlen (l_els l) <=? i) with true by lia. rewrite Hv. auto. }
  destruct (finish s1 (l_els l ++ vs) (l_busy l) true) as (s' & Ef & R').
  - reflexivity.
  - cbn. rewrite !zlen_app, zlen_zseq, (r_len _ _ R) by lia. auto.
  - apply NoDup_app_iff. split; [apply R|]. split; auto. intros x Hx Hx'. apply (Dis x); auto.
  - cbn. apply NoDup_app_iff. split; [apply R|]. split; [apply NoDup_zseq|]. intros x Hx Hx'. apply In_zseq in Hx'. pose proof (r_keys _ _ R) as K. rewrite Forall_forall in K. apply K in Hx. lia.
  - cbn. apply Forall_app. pose proof (r_keys _ _ R) as K. split; rewrite Forall_forall in *; intros x Hx; [apply K in Hx; lia|]. apply In_zseq in Hx. lia.
  - cbn. lia.
  - intros x y Hx. cbn in Hx. rewrite Hc in Hx. rewrite (r_len _ _ R) in Hx. destruct (zlen (l_els l) <=? x) eqn:Ex.
    + rewrite znth_app2 by lia. destruct (znth vs (x - zlen (l_els l))); auto. apply (r_coh _ _ R) in Hx. apply znth_Some in Hx. lia.
    + rewrite znth_app1 by lia. apply (r_coh _ _ R). auto.
  - auto.
  - intros x Hx. apply in_app_iff in Hx. destruct Hx; auto. apply (r_busy _ _ R); auto.
  - intros x Hx. apply (r_out _ _ R). intros C. apply Hx. apply in_app_iff. auto.
  - cbn. pose proof (r_in _ _ R) as I. rewrite (r_att _ _ R). destruct (l_att l).
    + intros y k x Hk Hx. destruct (y <? zlen (l_els l)) eqn:Ey.
      * rewrite znth_app1 in Hk by (rewrite (r_len _ _ R); lia). rewrite znth_app1 in Hx by lia. left. apply (I y k x Hk Hx).
      * rewrite znth_app2 in Hx by lia. right. split; cbn; [apply Cnew; auto; lia|]. apply E2. eapply znth_In; eauto.
    + intros y x Hx. destruct (y <? zlen (l_els l)) eqn:Ey.
      * rewrite znth_app1 in Hx by lia. destruct (I y x Hx) as [S1 S2]. split; cbn; auto. rewrite (Cold y x Hx). auto.
      * rewrite znth_app2 in Hx by lia. split; cbn; [apply Cnew; auto; lia|]. apply E2. eapply znth_In; eauto.
  - rewrite Ef. exists s'. split; [reflexivity|]. cbn in R'. rewrite (r_att _ _ R) in R'. exact R'.
Qed.

Lemma clear_rel : forall s l, rel s l -> exists s', v_clear s = (s', Ok tt) /\ rel s' (with_els l []).
Proof.
  intros s l R. destruct (clear_ok s (l_els l) (r_len _ _ R) (r_coh _ _ R) (rel_readable _ _ R)) as (s' & E & H1 & H2 & H3 & H4 & H5 & H6 & H7 & H8). exists s'. split; auto.
  constructor; cbn [l_att l_reg l_els l_busy with_els].
  - rewrite H1. apply R.
  - rewrite H2. apply R.
  - rewrite H3. auto.
  - constructor.
  - rewrite H3. constructor.
  - rewrite H3. constructor.
  - rewrite H4. lia.
  - intros i o Ho. rewrite H5 in Ho. discriminate.
  - congruence.
  - intros o [].
  - intros o _. destruct (in_dec Z.eq_dec o (l_els l)) as [I|I]; [rewrite H7 by auto; apply (r_busy _ _ R); auto|]. rewrite H8 by auto. apply (r_out _ _ R); auto.
  - assert (X : forall i (o : Z), znth (@nil Z) i = Some o -> False) by (intros i o Ho; apply znth_Some in Ho; cbn in Ho; lia). destruct (l_att l); intros; exfalso; eauto.
Qed.

Lemma detach_all_ok : forall xs s, exists d, detach_all xs s = (w_odir d s, Ok tt) /\ forall o, d o = if existsb (Z.eqb o) xs then None else v_odir s o.
Proof.
  induction xs as [|x xs IH]; intros s; cbn [detach_all].
  - exists (v_odir s). split; [destruct s; reflexivity|auto].
  - unfold mbind, obj_detach, modify. destruct (IH (w_odir (upd (v_odir s) x None) s)) as (d & E & H). rewrite E. exists d. split; [reflexivity|]. intros o. rewrite H. cbn. unfold upd. destruct (o =? x); cbn; auto. destruct (existsb _ _); auto.
Qed.

Lemma detach_rel : forall s l, rel s l -> exists s', p_detach s = (s', Ok tt) /\ rel s' (Lst false (l_reg l) (l_els l) (l_busy l)).
Proof.
  intros s l R. unfold p_detach. rewrite (r_reg _ _ R). destruct (l_reg l) eqn:Er; cbn [negb].
  - destruct (iter_rel s l R) as (s1 & E1 & R1 & A1). unfold mbind at 1. rewrite E1. destruct (detach_all_ok (l_els l) s1) as (d & E2 & Hd). unfold mbind at 1. rewrite E2.
    assert (Rd : readable (w_odir d s1) (l_els l)). { intros i o Ho. left. cbn. auto. }
    destruct (iter_ok (w_odir d s1) (l_els l)) as (s2 & E3 & (c & -> & G1 & G2) & A2); auto; try apply R1.
    unfold mbind at 1. rewrite E3. unfold modify. eexists. split; [reflexivity|].
    constructor; cbn [v_att v_reg v_refs v_next v_objs v_store v_odir w_odir w_objs w_refs w_att l_att l_reg l_els l_busy]; try apply R1; auto.
    + rewrite (r_reg _ _ R1). auto.
    + intros i o Ho. exact Ho.
    + intros o Ho. rewrite Hd. destruct (existsb (Z.eqb o) (l_els l)) eqn:Ex. { apply (existsb_exists) in Ex. destruct Ex as (x & Hx & Ex). exfalso. apply Ho. replace o with x by lia. auto. } apply (r_out _ _ R1); auto.
    + intros i o Ho. split; cbn; auto. rewrite Hd. replace (existsb (Z.eqb o) (l_els l)) with true; auto. symmetry. apply existsb_exists. exists o. split; [eapply znth_In; eauto|apply Z.eqb_refl].
  - assert (En : l_els l = []). { destruct (l_els l) eqn:E; auto. exfalso. assert (l_reg l = true); [|congruence]. apply (r_own _ _ R). rewrite E. discriminate. }
    eexists. split; [reflexivity|]. constructor; cbn [v_att v_reg v_refs v_next v_objs v_store v_odir w_att l_att l_reg l_els l_busy]; try apply R; auto.
    + rewrite (r_reg _ _ R). auto.
    + rewrite En. intros i o Ho. apply znth_Some in Ho. cbn in Ho. lia.
Qed.

Lemma attach_rel : forall s l t, rel s l -> l_att l = false -> exists s', p_attach t s = (s', Ok tt) /\ rel s' (Lst true (l_reg l) (l_els l) (l_busy l)).
Proof.
  intros s l t R A. unfold p_attach. rewrite (r_att _ _ R), A. rewrite (r_reg _ _ R). pose proof (r_in _ _ R) as I. rewrite A in I. destruct (l_reg l) eqn:Er.
  - destruct (finish (w_store t (w_att true s)) (l_els l) (l_busy l) true) as (s' & E & R'); cbn; try apply R; auto.
    + rewrite (r_reg _ _ R). auto.
    + intros i k o Hk Ho. right. apply (I i o Ho).
    + exists s'. split; [exact E|exact R'].
  - assert (En : l_els l = []). { destruct (l_els l) eqn:E; auto. exfalso. assert (l_reg l = true); [|congruence]. apply (r_own _ _ R). rewrite E. discriminate. }
    eexists. split; [reflexivity|]. constructor; cbn [v_att v_reg v_refs v_next v_objs v_store v_odir w_att w_store l_att l_reg l_els l_busy]; try apply R; auto.
    + rewrite (r_reg _ _ R). auto.
    + rewrite En. intros i k o _ Ho. apply znth_Some in Ho. cbn in Ho. lia.
Qed.

Theorem step : forall o s l, rel s l -> allowed o l -> exists s', run_op okclass okroot o s = (s', snd (spec o l)) /\ rel s' (fst (spec o l)).
Proof.
  intros o s l R A. destruct o; cbn [allowed] in A.
  - destruct (get_rel s l i R A) as (s' & E & R' & _). cbn. unfold lift, mbind. rewrite E. exists s'. auto.
  - destruct (get_rel s l i R A) as (s' & E & R' & _). cbn. unfold lift, v_item, mbind. rewrite E. exists s'. destruct (znth _ _); auto.
  - exists s. cbn. unfold view. rewrite (r_len _ _ R). auto.
  - destruct (iter_rel s l R) as (s' & E & R' & _). cbn. unfold lift, mbind. rewrite E. exists s'. auto.
  - apply set_rel; auto.
  - apply pop_rel; auto.
  - apply insert_rel; auto.
  - destruct A as [A1 A2]. destruct (extend_rel s l vs R A1 A2) as (s' & E & R'). cbn [run_op spec]. unfold lift, mbind. rewrite E. exists s'. destruct (ext l vs) as [l' [?|?]] eqn:X; cbn in *; split; auto.
    unfold ext in X. destruct (refuse l vs); inversion X; auto.
  - destruct (clear_rel s l R) as (s' & E & R'). cbn [run_op spec]. unfold lift, mbind. rewrite E. exists s'. auto.
  - destruct (clear_rel s l R) as (s1 & E1 & R1). destruct (extend_rel s1 (with_els l []) vs R1 A) as (s' & E & R'); [intros _ v _ []|].
    cbn [run_op spec v_setvalue]. unfold lift, mbind. rewrite E1, E. exists s'. destruct (ext (with_els l []) vs) as [l' [?|?]] eqn:X; cbn in *; split; auto.
    unfold ext in X. destruct (refuse (with_els l []) vs); inversion X; auto.
  - cbn [run_op spec fst snd]. rewrite (r_att _ _ R). destruct (l_att l) eqn:Ea; [|exists s; auto]. eexists. split; [reflexivity|]. constructor; cbn; try apply R; auto.
    + intros x y Hx. cbn in Hx. destruct (keep x); [|discriminate]. apply (r_coh _ _ R); auto.
    + pose proof (r_in _ _ R) as I. rewrite Ea in *. exact I.
  - cbn [run_op spec]. unfold lift, mbind. destruct (l_att l) eqn:Ea.
    + unfold p_attach. rewrite (r_att _ _ R), Ea. exists s. auto.
    + destruct (attach_rel s l t R Ea) as (s' & E & R'). rewrite E. exists s'. auto.
  - cbn [run_op spec]. unfold lift, mbind. destruct (detach_rel s l R) as (s' & E & R'). rewrite E. exists s'. auto.
  - cbn [run_op spec fst snd]. eexists. split; [reflexivity|]. constructor; cbn [v_att v_reg v_refs v_next v_objs v_store v_odir w_odir l_att l_reg l_els l_busy]; try apply R.
    + intros x Hx. rewrite upd_other by (intros ->; auto). apply (r_busy _ _ R); auto.
    + intros x Hx. destruct (Z.eq_dec x o) as [->|]; [rewrite !upd_same; destruct d; auto|rewrite !upd_other by auto; apply (r_out _ _ R); auto].
    + pose proof (r_in _ _ R) as I. destruct (l_att l).
      * intros i k x Hk Hx. destruct (I i k x Hk Hx) as [S1 S2]. split; cbn; auto. rewrite upd_other; auto. intros ->. apply A. eapply znth_In; eauto.
      * intros i x Hx. destruct (I i x Hx) as [S1 S2]. split; cbn; auto. rewrite upd_other; auto. intros ->. apply A. eapply znth_In; eauto.
Qed.
End Spec.

(** ** C30 *)

(** Every history gives the results a list gives: on a new vector ... *)
Theorem C30_list_partial : forall okclass okroot ops att t odir, (forall o, match odir o with Some (Here _) => False | _ => True end) ->
  let l := Lst att false [] (fun o => match odir o with None => false | Some _ => true end) in
  all_allowed okclass okroot ops l ->
  snd (run okclass okroot ops (fresh att t odir)) = snd (spec_run okclass okroot ops l).
Proof.
  intros okclass okroot ops att t odir Ho l. assert (R : rel (fresh att t odir) l).
  { assert (X : forall i (o : Z), znth (@nil Z) i = Some o -> False) by (intros i o H; apply znth_Some in H; cbn in H; lia).
    split; cbn; auto; try constructor; try lia; try (intros i o C; discriminate); try (intros C; contradiction); try (intros C D; solve [destruct D]).
    - intros o _. specialize (Ho o). destruct (odir o) as [[|]|]; auto.
    - destruct att; intros; exfalso; eauto. }
  clearbody l. generalize dependent l. generalize (fresh att t odir). clear. induction ops as [|o ops IH]; intros s l R A; auto.
  destruct A as [A1 A2]. cbn [run spec_run]. destruct (step okclass okroot o s l R A1) as (s1 & E & R1). rewrite E. destruct (spec okclass okroot o l) as [l1 x]. cbn [fst snd] in *.
  specialize (IH s1 l1 R1 A2). destruct (run okclass okroot ops s1), (spec_run okclass okroot ops l1). cbn in *. congruence.
Qed.

(** ... and on one read from a file: references from its index, every storage holding its object, nothing
    in the cache yet. *)
Theorem C30_loaded_partial : forall okclass okroot ops refs next els store odir,
  NoDup refs -> Forall (fun k => 0 <= k < next) refs -> 0 <= next -> NoDup els -> zlen refs = zlen els ->
  (forall i k o, znth refs i = Some k -> znth els i = Some o -> store k = Some (Some o) /\ odir o = Some (Here k)) ->
  (forall o, ~ In o els -> match odir o with Some (Here _) => False | _ => True end) ->
  let l := Lst true true els (fun o => match odir o with Some (There _) => true | _ => false end) in
  all_allowed okclass okroot ops l ->
  snd (run okclass okroot ops (Vec true true refs next (fun _ => None) store odir)) = snd (spec_run okclass okroot ops l).
Proof.
  intros okclass okroot ops refs next els store odir H1 H2 H0 H3 H4 H5 H6 l. assert (R : rel (Vec true true refs next (fun _ => None) store odir) l).
  { constructor; cbn; auto.
    - intros i o C. discriminate.
    - intros o Ho. destruct (In_znth _ _ _ Ho) as (i & Hi & Hz). destruct (znth_in_range _ refs i) as (k & Hk); [lia|]. destruct (H5 i k o Hk Hz) as [_ ->]. auto.
    - intros o Ho. specialize (H6 o Ho). destruct (odir o) as [[|]|]; auto. }
  clearbody l. generalize dependent l. generalize (Vec true true refs next (fun _ => None) store odir). clear. induction ops as [|o ops IH]; intros s l R A; auto.
  destruct A as [A1 A2]. cbn [run spec_run]. destruct (step okclass okroot o s l R A1) as (s1 & E & R1). rewrite E. destruct (spec okclass okroot o l) as [l1 x]. cbn [fst snd] in *.
  specialize (IH s1 l1 R1 A2). destruct (run okclass okroot ops s1), (spec_run okclass okroot ops l1). cbn in *. congruence.
Qed.

Definition yes (_ : Z) : bool := true.
Definition no_dirs (_ : Z) : option dref := None.
Definition empty_dir (_ : Z) : option (option Z) := None.

(** The uses not covered are where the code differs from a list. Index before the first element: a list
    raises IndexError, the vector uses element 0. *)
Theorem C30_negative_refuted : snd (run yes yes [OExtend [7]; OItem (-5); OPop (-5); OLen] (fresh false empty_dir no_dirs)) =
  [Ok RUnit; Ok (RObj (Some 7)); Ok (RObj (Some 7)); Ok (RInt 0)].
Proof. reflexivity. Qed.

(** insert past the end: a list appends; here the vector cannot be read any more. *)
Theorem C30_insert_past_end_refuted : snd (run yes yes [OExtend [7]; OInsert 5 8; OLen; OIter] (fresh false empty_dir no_dirs)) =
  [Ok RUnit; Ok RUnit; Ok (RInt 2); Err GenericError].
Proof. reflexivity. Qed.

(** insert at a negative index: a list inserts before the last element. *)
Theorem C30_insert_negative_refuted : snd (run yes yes [OExtend [7]; OInsert (-1) 8; OLen; OGet 0; OGet 1] (fresh false empty_dir no_dirs)) =
  [Ok RUnit; Ok RUnit; Ok (RInt 2); Err GenericError; Ok (RObj (Some 7))].
Proof. reflexivity. Qed.

(** insert into a new vector does not make it a property of its owner: nothing is saved. *)
Theorem C30_insert_new_refuted : let s := fst (run yes yes [OInsert 0 8] (fresh true empty_dir no_dirs)) in
  v_refs s = [0] /\ v_reg s = false.
Proof. split; reflexivity. Qed.

(** insert of an object attached elsewhere under the same storage name: accepted, but its storage stays
    blank; after the cache entry is gone the vector cannot be read. Under another name it is refused, but
    only after the vector was changed. *)
Theorem C30_insert_attached_refuted :
  snd (run yes yes [OExtend []; OEnv 8 (Some (Some 0)); OInsert 0 8; OGc (fun _ => false); OIter] (fresh true empty_dir no_dirs)) =
    [Ok RUnit; Ok RUnit; Ok RUnit; Ok RUnit; Err GenericError] /\
  snd (run yes yes [OExtend []; OEnv 8 (Some None); OInsert 0 8; OLen] (fresh true empty_dir no_dirs)) =
    [Ok RUnit; Ok RUnit; Err AttachError; Ok (RInt 1)].
Proof. split; reflexivity. Qed.

(** The same new object twice in one extend: refused, but only after the vector was changed. *)
Theorem C30_extend_twice_refuted : snd (run yes yes [OExtend [7; 7]; OLen] (fresh true empty_dir no_dirs)) = [Err AttachError; Ok (RInt 2)].
Proof. reflexivity. Qed.

(** the hypotheses of C30 are met by a history of every operation *)
Definition sample : list op :=
  [OExtend [1; 2; 3]; OPop (-1); OInsert 1 4; OAttach (fun k => if k =? 1 then Some (Some 9) else None); OGc (fun i => i =? 1); OSet 0 5; OIter;
   OEnv 6 (Some (Some 2)); OExtend [6]; OExtend [1; 5]; ODetach; OValue [3; 5]; OItem 1; OGet 9; OLen; OAttach empty_dir; OClear; OExtend [5]; OIter].
Example C30_case : all_allowed yes yes sample (Lst false false [] (fun _ => false)) /\
  snd (spec_run yes yes sample (Lst false false [] (fun _ => false))) =
  [Ok RUnit; Ok (RObj (Some 3)); Ok RUnit; Ok RUnit; Ok RUnit; Ok RUnit; Ok (RList [5; 4; 2]); Ok RUnit; Err AttachError; Err AttachError; Ok RUnit; Ok RUnit; Ok (RObj (Some 5)); Ok (RObj None); Ok (RInt 2);
   Ok RUnit; Ok RUnit; Ok RUnit; Ok (RList [5])].
Proof.
  split; [|reflexivity]. vm_compute.
  repeat match goal with |- _ /\ _ => split | |- NoDup _ => constructor | H : In _ _ |- _ => destruct H | H : _ \/ _ |- _ => destruct H | H : False |- _ => destruct H | |- forall _, _ => intros | |- ~ _ => intros ? | |- True => exact I | |- _ => discriminate | |- _ => reflexivity end.
Qed.

(** ** C31 *)

Section Keys.
Variable okclass okroot : Z -> bool.
Definition keeps {A} (m : M A) : Prop := forall s, v_refs (fst (m s)) = v_refs s /\ v_next (fst (m s)) = v_next s.
Lemma keeps_bind : forall A B (m : M A) (f : A -> M B), keeps m -> (forall a, keeps (f a)) -> keeps (mbind m f).
Proof. intros A B m f Hm Hf s. unfold mbind. destruct (m s) as [s1 [a|e]] eqn:E; specialize (Hm s); rewrite E in Hm; cbn in *; auto. destruct (Hf a s1). destruct Hm. split; congruence. Qed.
Lemma keeps_ret : forall A (a : A), keeps (ret a). Proof. split; auto. Qed.
Lemma keeps_raise : forall A e, keeps (@raise A e). Proof. split; auto. Qed.
Lemma keeps_get : forall i, keeps (v_get i).
Proof. intros i s. unfold v_get. destruct (_ <=? _); auto. destruct (v_objs s _); auto. destruct (znth _ _); auto. destruct (negb _); auto. destruct (v_store s _) as [[|]|]; auto. Qed.
Lemma keeps_for : forall body, (forall i o, keeps (body i o)) -> forall n i, keeps (v_for n i body).
Proof.
  intros body H. induction n as [|n IH]; intros i; cbn [v_for]; [apply keeps_ret|]. apply keeps_bind; [apply keeps_get|]. intros [x|]; [|apply keeps_raise]. apply keeps_bind; auto. intros _. apply keeps_bind; auto. intros r. apply keeps_ret.
Qed.
Lemma keeps_each : forall body, (forall i o, keeps (body i o)) -> keeps (v_each body).
Proof. intros body H s. apply (keeps_for body H). Qed.
Lemma keeps_iter : keeps v_iter. Proof. apply keeps_each. intros. apply keeps_ret. Qed.
Lemma keeps_detach : forall o, keeps (obj_detach o). Proof. split; auto. Qed.
Lemma keeps_attach_body : forall i o, keeps (attach_body i o).
Proof.
  intros i o s. unfold attach_body. destruct (znth _ _); auto. set (s1 := match v_store s z with Some _ => s | None => w_store (upd (v_store s) z (Some None)) s end). assert (H : v_refs s1 = v_refs s /\ v_next s1 = v_next s) by (unfold s1; destruct (v_store s z); auto).
  destruct (same_name _ _); auto. unfold obj_attach. destruct (v_odir s1 o); auto.
Qed.
Lemma keeps_attach : keeps v_attach.
Proof. intros s. unfold v_attach. destruct (negb _); auto. apply (keeps_bind _ _ (v_each attach_body) (fun _ => ret tt)); [apply keeps_each, keeps_attach_body|]. intros _. apply keeps_ret. Qed.
Lemma keeps_detach_all : forall l, keeps (detach_all l).
Proof. induction l as [|x l IH]; cbn [detach_all]; [apply keeps_ret|]. apply keeps_bind; [apply keeps_detach|auto]. Qed.
Lemma keeps_check : forall vs, keeps (extend_check okclass okroot vs).
Proof. induction vs as [|v vs IH]; cbn [extend_check]; [apply keeps_ret|]. intros s. destruct (negb _); auto. destruct (negb _); auto. destruct (v_odir s v); auto. Qed.

Definition keyed (refs : list Z) (next : Z) : Prop := NoDup refs /\ Forall (fun k => 0 <= k < next) refs /\ 0 <= next.
Definition keys_ok (s : vec) : Prop := keyed (v_refs s) (v_next s).
Definition safe {A} (m : M A) : Prop := forall s, keys_ok s -> keys_ok (fst (m s)).
Lemma safe_keeps : forall A (m : M A), keeps m -> safe m.
Proof. intros A m H s K. unfold keys_ok. destruct (H s) as [-> ->]. auto. Qed.
Lemma safe_bind : forall A B (m : M A) (f : A -> M B), safe m -> (forall a, safe (f a)) -> safe (mbind m f).
Proof. intros A B m f Hm Hf s K. unfold mbind. specialize (Hm s K). destruct (m s) as [s1 [a|e]]; cbn in *; auto. apply Hf. auto. Qed.
Lemma keyed_insert : forall refs next i, keyed refs next -> keyed (list_insert refs i next) (next + 1).
Proof.
  intros refs next i (K1 & K2 & K3). rewrite Forall_forall in K2.
  unfold list_insert. set (j := if i <? 0 then _ else _). fold (ins refs j next). split; [apply ins_NoDup; auto; intros C; apply K2 in C; lia|]. split; [|lia]. rewrite Forall_forall. intros x Hx. apply ins_In in Hx. destruct Hx as [->|Hx]; [lia|]. apply K2 in Hx. lia.
Qed.
Lemma keyed_pop : forall refs next i, keyed refs next -> keyed (list_pop refs i) next.
Proof.
  intros refs next i (K1 & K2 & K3). unfold list_pop. destruct (Z_lt_dec i 0) as [Hi|Hi]; [|destruct (Z_lt_dec i (zlen refs)) as [Hj|Hj]].
  - split. 2:{ split; auto. apply Forall_app. split; [apply Forall_ztake|apply Forall_zdrop]; auto. } rewrite ztake_0 by lia. cbn [app]. rewrite <- (ztake_zdrop _ (i + 1) refs) in K1. apply NoDup_app_remove_l in K1. auto.
  - split; [apply pop_NoDup; auto; lia|]. split; auto. apply Forall_app. split; [apply Forall_ztake|apply Forall_zdrop]; auto.
  - rewrite ztake_all, zdrop_all, app_nil_r by lia. split; auto.
Qed.

Lemma safe_op : forall o, safe (run_op okclass okroot o).
Proof.
  assert (L : forall A (f : A -> out) m, safe m -> safe (lift f m)) by (intros A f m H; apply safe_bind; auto; intros a; apply safe_keeps, keeps_ret).
  assert (G : forall i, safe (v_get i)) by (intros; apply safe_keeps, keeps_get).
  assert (Ext : forall vs, safe (v_extend okclass okroot vs)).
  { intros vs. unfold v_extend. apply safe_bind; [apply safe_keeps, keeps_check|]. intros _. apply safe_bind.
    - induction vs as [|v vs IH]; cbn [extend_add]; [apply safe_keeps, keeps_ret|]. apply safe_bind; auto. intros s (K1 & K2 & K3). unfold keys_ok, keyed. cbn [fst modify v_refs v_next w_refs w_next w_objs]. rewrite Forall_forall in K2. split; [|split; [|lia]].
      + apply NoDup_app_iff. split; auto. split; [repeat constructor; auto|]. intros x Hx [<-|[]]. apply K2 in Hx. lia.
      + apply Forall_app. split; rewrite ?Forall_forall; [intros x Hx; apply K2 in Hx; lia|]. intros x [<-|[]]. lia.
    - intros _. apply safe_bind; [intros s K; exact K|]. intros _. apply safe_keeps, keeps_attach. }
  assert (Clr : safe v_clear).
  { unfold v_clear. apply safe_bind; [apply safe_keeps, keeps_each; intros; apply keeps_detach|]. intros _ s K. split; [constructor|]. split; [constructor|]. cbn. lia. }
  intros [i|i| | |i v|i|i v|vs| |vs|keep|t| |x d]; cbn [run_op].
  - apply L, G.
  - apply L. apply safe_bind; auto. intros [x|]; apply safe_keeps; [apply keeps_ret|apply keeps_raise].
  - intros s K. exact K.
  - apply L. apply safe_keeps, keeps_iter.
  - apply L. intros s K. unfold v_setitem. destruct (_ <=? _); auto. destruct (negb _); auto. destruct (v_odir s v); auto.
    set (j := if i <? 0 then _ else _). clearbody j. revert s K. apply safe_bind; auto. intros obj. apply safe_bind; [destruct obj; apply safe_keeps; [apply keeps_detach|apply keeps_ret]|]. intros _. apply safe_bind; [intros s K; exact K|]. intros _. apply safe_keeps, keeps_attach.
  - apply L. apply safe_bind; auto. intros [o|]; [|apply safe_keeps, keeps_raise]. intros s K.
    set (j := if i <? 0 then Z.max 0 (zlen (v_refs s) + i) else i). pose proof (keyed_pop _ _ j K) as K'. cbn zeta. fold j. destruct (v_objs s j) as [item|]; [|exact K']. destruct (item =? o); exact K'.
  - apply L. intros s K. unfold v_insert. destruct (negb _); auto. apply (safe_keeps _ _ keeps_attach). apply keyed_insert. exact K.
  - apply L, Ext.
  - apply L, Clr.
  - apply L. apply safe_bind; auto.
  - intros s K. cbn. destruct (v_att s); exact K.
  - apply L. intros s K. unfold p_attach. destruct (v_att s); auto. destruct (v_reg s); auto. apply (safe_keeps _ _ keeps_attach). exact K.
  - apply L. intros s K. unfold p_detach. destruct (negb _); [exact K|]. revert s K. apply safe_bind; [apply safe_keeps, keeps_iter|]. intros l. apply safe_bind; [apply safe_keeps, keeps_detach_all|]. intros _. apply safe_bind; [apply safe_keeps, keeps_iter|]. intros l2 s K. exact K.
  - intros s K. exact K.
Qed.
End Keys.

(** Whatever is done to the vector, with any arguments and also when operations raise, no two elements share
    a storage name, even compared in upper case; the keys stay below next_free_key. *)
Theorem C31_distinct : forall okclass okroot ops s up name i j a b, ascii_upper up ->
  NoDup (v_refs s) -> Forall (fun k => 0 <= k < v_next s) (v_refs s) -> 0 <= v_next s ->
  let s' := fst (run okclass okroot ops s) in
  znth (v_refs s') i = Some a -> znth (v_refs s') j = Some b -> i <> j ->
  flat_map up (element_storage name a) <> flat_map up (element_storage name b) /\ 0 <= a < v_next s'.
Proof.
  intros okclass okroot ops s up name i j a b UP H1 H2 H3. assert (K : keys_ok s) by (split; auto). clear H1 H2 H3.
  assert (K' : keys_ok (fst (run okclass okroot ops s))).
  { revert s K. induction ops as [|o ops IH]; intros s K; auto. cbn [run]. pose proof (safe_op okclass okroot o s K) as K1. destruct (run_op okclass okroot o s) as [s1 x]. cbn [fst] in K1. specialize (IH s1 K1). destruct (run okclass okroot ops s1). exact IH. }
  intros s' Ha Hb Hne. fold s' in K'. destruct K' as (K1 & K2 & K3). rewrite Forall_forall in K2. pose proof (K2 a (znth_In _ _ _ _ Ha)) as Ba. pose proof (K2 b (znth_In _ _ _ _ Hb)) as Bb. split; auto.
  intros E. unfold element_storage in E. rewrite !flat_map_app in E. apply app_inv_head in E. apply app_inv_head in E. apply app_inv_tail in E.
  rewrite !(up_hex up UP) in E by (apply hex_str_lower; lia). apply hexu_inj in E; try lia. subst b. apply Hne. eapply znth_inj; eauto.
Qed.
Example C31_case : v_refs (fst (run yes yes [OExtend [1; 2; 3]; OPop 1; OExtend [4]; OInsert 0 5; OInsert 7 6] (fresh false empty_dir no_dirs))) = [4; 0; 2; 3; 5].
Proof. reflexivity. Qed.

Print Assumptions C30_list_partial. Print Assumptions C30_loaded_partial. Print Assumptions C31_distinct.
Print Assumptions C30_negative_refuted. Print Assumptions C30_insert_past_end_refuted. Print Assumptions C30_insert_negative_refuted.
Print Assumptions C30_insert_new_refuted. Print Assumptions C30_insert_attached_refuted. Print Assumptions C30_extend_twice_refuted.
