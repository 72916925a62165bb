(** C33, C34: strong reference sets. *)
From Verif Require Import Base BaseFacts Text TextFacts ObjModel PropsObj TypesModel TypesFacts VecModel VecFacts SetModel SetFacts.
From Coq Require Import ZArith List Bool Lia.
Import ListNotations.
Open Scope Z_scope.
Open Scope t_scope.

(** ** Specification: a Python dict from unique key to object

    [d_map] is the dict in its order, [d_att] says whether the set's owner is part of the file, [d_busy]
    which objects are attached somewhere else, [d_key] the unique key of each object, [d_dead] the objects
    of the file that have no Python object at the moment (they were collected and not read again). *)
Definition member (l : dic) (o : Z) : bool := existsb (Z.eqb o) (map snd (d_map l)).
Definition attached_obj (l : dic) (v : Z) : bool := d_busy l v || (d_att l && member l v).
Definition without (m : list (Z * Z)) (k : Z) : list (Z * Z) := filter (fun p => negb (fst p =? k)) m.

Definition put (key : Z -> option Z) (m : list (Z * Z)) (v : Z) : list (Z * Z) := match key v with Some k => dict_set Z.eqb m k v | None => m end.
(** every object read has a Python object from then on *)
Definition seen (l : dic) (os : list Z) : dic := with_dead l (revive (d_dead l) os).
Definition dswap (l : dic) (old new o : Z) : dic :=
  Dic (d_att l) (d_reg l) (without (d_map l) old ++ [(new, o)]) (d_busy l) (upd (d_key l) o (Some new)) (revive (d_dead l) [o]).

Definition free_key (l : dic) (old new : Z) : Prop := new = old \/ ~ In new (map fst (d_map l)).
Section Spec.
Variable okclass okroot : Z -> bool.
Variable swappable : bool.

Fixpoint drefuse (l : dic) (vs : list Z) : option err :=
  match vs with
  | [] => None
  | v :: r => if negb (okclass v) then Some TypeError else if negb (okroot v) || attached_obj l v then Some AttachError else drefuse l r
  end.
Definition dext (l : dic) (vs : list Z) : dic * result sout :=
  match drefuse l vs with
  | Some e => (l, Err e)
  | None => (Dic (d_att l) true (fold_left (put (d_key l)) vs (d_map l)) (d_busy l) (d_key l) (d_dead l), Ok QUnit)
  end.
Definition dspec (op : sop) (l : dic) : dic * result sout :=
  match op with
  | SGet k => (alive_get l k, Ok (QObj (dict_get Z.eqb (d_map l) k)))
  | SItem k => (alive_get l k, match dict_get Z.eqb (d_map l) k with Some o => Ok (QObj (Some o)) | None => Err KeyError end)
  | SContains k => (l, Ok (QBool (existsb (Z.eqb k) (map fst (d_map l)))))
  | SLen => (l, Ok (QInt (zlen (d_map l))))
  | SItems => (seen l (map snd (d_map l)), Ok (QItems (d_map l)))
  | SExtend vs => dext l vs
  | SPop k => match dict_get Z.eqb (d_map l) k with
              | Some o => (with_map (seen l [o]) (without (d_map l) k), Ok (QObj (Some o)))
              | None => (l, Err KeyError)
              end
  | SClear => (with_map (seen l (map snd (d_map l))) [], Ok QUnit)
  | SValue vs => dext (with_map (seen l (map snd (d_map l))) []) vs
  | SSwap old new => match dict_get Z.eqb (d_map l) old with Some o => (dswap l old new o, Ok QUnit) | None => (l, Err ValueError) end
  | SKey o k =>
    if member l o then
      match d_key l o with
      | Some old => if swappable then (dswap l old k o, Ok QUnit) else (l, Err PropertyError)
      | None => (l, Ok QUnit)
      end
    else (Dic (d_att l) (d_reg l) (d_map l) (d_busy l) (upd (d_key l) o (Some k)) (d_dead l), Ok QUnit)
  | SGc keep => ((if d_att l then with_dead l (fun o => d_dead l o || existsb (fun p => (snd p =? o) && negb (keep (fst p))) (d_map l)) else l), Ok QUnit)
  | SAttach _ => if d_att l then (l, Err AttachError) else (Dic true (d_reg l) (d_map l) (d_busy l) (d_key l) (d_dead l), Ok QUnit)
  | SDetach => (let l' := seen l (map snd (d_map l)) in Dic false (d_reg l') (d_map l') (d_busy l') (d_key l') (d_dead l'), Ok QUnit)
  | SEnv o d => (Dic (d_att l) (d_reg l) (d_map l) (upd (d_busy l) o (match d with None => false | Some _ => true end)) (d_key l) (d_dead l), Ok QUnit)
  end.

(** The uses covered: objects put into the set have a unique key; a key is only changed to one that no other
    object of the set has, and while the object is in a set that is part of the file or not in the set. *)
Definition dallowed (op : sop) (l : dic) : Prop :=
  match op with
  | SExtend vs | SValue vs => forall v, In v vs -> d_key l v <> None /\ d_dead l v = false
  | SSwap old new => free_key l old new
  | SKey o k => d_dead l o = false /\ (if member l o then d_att l = true /\ forall old, d_key l o = Some old -> free_key l old k else d_busy l o = false)
  | SEnv o _ => d_dead l o = false /\ member l o = false
  | _ => True
  end.
Fixpoint dspec_run (ops : list sop) (l : dic) : dic * list (result sout) :=
  match ops with
  | [] => (l, [])
  | o :: r => let '(l1, x) := dspec o l in let '(l2, xs) := dspec_run r l1 in (l2, x :: xs)
  end.
Fixpoint dall_allowed (ops : list sop) (l : dic) : Prop :=
  match ops with [] => True | o :: r => dallowed o l /\ dall_allowed r (fst (dspec o l)) end.

End Spec.

(** ** Each operation *)

Lemma member_In : forall l o, member l o = true <-> exists k, In (k, o) (d_map l).
Proof.
  intros l o. unfold member. rewrite existsb_eqb, in_map_iff. split; [intros ([k x] & <- & H); exists k; auto|intros (k & H); exists (k, o); auto].
Qed.
Lemma member_not : forall l o, member l o = false -> forall k, ~ In (k, o) (d_map l).
Proof. intros l o H k I. assert (member l o = true) by (apply member_In; eauto). congruence. Qed.

Lemma odir_attached : forall s l v, srel s l -> d_dead l v = false -> (match t_odir s v with None => false | Some _ => true end) = attached_obj l v.
Proof.
  intros s l v R D. unfold attached_obj. destruct (member l v) eqn:E.
  - apply member_In in E. destruct E as (k & E). destruct (local_of s l k v R E) as (c & Hc & _). pose proof (q_in _ _ R) as I. destruct (d_att l).
    + destruct (I k c v Hc E) as [_ ->]. destruct (d_busy l v); auto.
    + destruct (I k v E) as [_ ->]. rewrite (q_busy _ _ R k v E). auto.
  - rewrite andb_false_r, orb_false_r. pose proof (q_out _ _ R v (member_not _ _ E) D) as O. destruct (t_odir s v) as [[|]|]; auto. destruct O.
Qed.

Lemma adds_rel : forall vs s l, srel s l -> (forall v, In v vs -> d_key l v <> None /\ d_dead l v = false /\ d_busy l v = false) ->
  exists s', t_adds vs s = (s', Ok tt) /\ srel s' (with_map l (fold_left (put (d_key l)) vs (d_map l))) /\ t_reg s' = t_reg s.
Proof.
  induction vs as [|v vs IH]; intros s l R H; cbn [t_adds fold_left].
  - exists s. split; auto. split; auto. destruct l; exact R.
  - destruct (H v (or_introl eq_refl)) as (H1 & H2 & H3). destruct (d_key l v) as [k|] eqn:K; [|congruence]. destruct (add_rel s l v k R K H2 H3) as (s1 & E1 & R1 & G1). unfold tbind at 1. rewrite E1.
    destruct (IH s1 _ R1) as (s2 & E2 & R2 & G2). { intros x X. apply H. right. auto. } exists s2. split; auto. unfold put at 2. rewrite K. split; auto. congruence.
Qed.

Lemma reg_rel : forall s l b, srel s l -> srel (x_reg b s) l.
Proof. intros s l b R. constructor; apply R. Qed.
Lemma dreg_rel : forall s l b, srel s l -> srel s (Dic (d_att l) b (d_map l) (d_busy l) (d_key l) (d_dead l)).
Proof. intros s l b R. constructor; apply R. Qed.

Lemma seen_none : forall l o, (forall x, revive (d_dead l) [o] x = if x =? o then false else d_dead l x).
Proof. intros l o x. unfold revive. cbn. rewrite orb_false_r. auto. Qed.

Lemma pop_srel : forall s l k o, srel s l -> In (k, o) (d_map l) -> exists s', t_pop k s = (s', Ok (Some o)) /\ srel s' (with_map (seen l [o]) (without (d_map l) k)) /\ t_reg s' = t_reg s.
Proof.
  intros s l k o R H. unfold t_pop. destruct (get_srel s l k R) as (s1 & E1 & R1 & G1 & O1). assert (Hg : dict_get Z.eqb (d_map l) k = Some o) by (apply get_In; auto; apply R).
  unfold tbind at 1. rewrite E1. rewrite Hg. unfold alive_get in R1. rewrite Hg in *. fold (seen l [o]) in R1. specialize (O1 o eq_refl).
  unfold tbind, t_obj_detach, tmod, tret. eexists. split; [reflexivity|]. split; [|exact G1].
  change (without (d_map l) k) with (dict_del (d_map l) k). pose proof (q_in _ _ R1) as I.
  constructor; cbn [d_att d_reg d_map d_busy d_key d_dead with_map seen with_dead t_att t_reg t_refs t_next t_objs t_store t_odir t_key x_objs x_odir x_store x_next x_refs]; try apply R1.
  - rewrite !del_fst, (q_keys _ _ R1). auto.
  - apply del_NoDup, R.
  - apply del_snd_NoDup, R1.
  - pose proof (q_range _ _ R1) as F. rewrite Forall_forall in *. intros x X. apply F. eapply del_snd; eauto.
  - intros j x X. apply del_In. destruct (Z.eq_dec j k) as [->|]; [rewrite upd_same in X; discriminate|]. rewrite upd_other in X by auto. split; auto. apply (q_coh _ _ R1); auto.
  - intros j x X. apply del_In in X. apply (q_kin _ _ R1). tauto.
  - intros j x X. apply del_In in X. apply (q_busy _ _ R1 j). tauto.
  - intros j x X. apply del_In in X. rewrite upd_other by tauto. apply (q_dead _ _ R1). tauto.
  - intros x X D. destruct (Z.eq_dec x o) as [->|]; [rewrite upd_same; apply (q_busy _ _ R k); auto|]. rewrite upd_other by auto. apply (q_out _ _ R1); auto. intros j Y. apply (X j). apply del_In. split; auto. intros ->. apply n. eapply In_fun; eauto. apply R.
  - cbn in I. destruct (d_att l).
    + intros j c x Hc X. apply del_In in Hc, X. destruct (I j c x) as [S1 S2]; try tauto. split; cbn; auto. rewrite upd_other; auto. intros ->. assert (j = k) by (eapply obj_fun; [exact R|apply (proj2 X)|exact H]). tauto.
    + intros j x X. apply del_In in X. destruct (I j x) as [S1 S2]; try tauto. rewrite upd_other by tauto. split; auto. destruct (Z.eq_dec x o) as [->|]; [apply upd_same|rewrite upd_other; auto].
Qed.

Lemma swap_srel : forall s l old new o, srel s l -> In (old, o) (d_map l) -> free_key l old new ->
  exists s', t_swap old new s = (s', Ok tt) /\ srel s' (dswap l old new o) /\ t_reg s' = t_reg s.
Proof.
  intros s l old new o R H F. unfold t_swap. destruct (get_srel s l old R) as (s1 & E1 & R1 & G1 & O1). assert (Hg : dict_get Z.eqb (d_map l) old = Some o) by (apply get_In; auto; apply R).
  unfold tbind at 1. rewrite E1. rewrite Hg. unfold alive_get in R1. rewrite Hg in *. fold (seen l [o]) in R1. specialize (O1 o eq_refl).
  destruct (local_of s1 (seen l [o]) old o R1 H) as (c & Hc & Gc). rewrite Gc. eexists. split; [reflexivity|]. split; [|exact G1].
  assert (Fd : ~ In new (map fst (dict_del (d_map l) old))). { destruct F as [->|F]; [apply del_none|]. intros X. apply F. apply key_In in X. destruct X as (x & X). apply del_In in X. eapply In_key. apply X. }
  assert (Fr : ~ In new (map fst (dict_del (t_refs s1) old))). { rewrite del_fst, (q_keys _ _ R1), <- del_fst. exact Fd. }
  rewrite dict_set_new by (auto; apply zeqb_eq). unfold dswap. change (without (d_map l) old) with (dict_del (d_map l) old).
  assert (Hother : forall j x, In (j, x) (dict_del (d_map l) old ++ [(new, o)]) -> (j = new /\ x = o) \/ (j <> old /\ j <> new /\ x <> o /\ In (j, x) (d_map l))).
  { intros j x X. apply in_app_iff in X. destruct X as [X|[X|[]]]; [|left; split; congruence]. right. assert (j <> new) by (intros ->; apply Fd; eapply In_key; eauto). apply del_In in X. destruct X as [X1 X2]. repeat split; auto. intros ->. apply X1. eapply obj_fun; eauto. }
  pose proof (q_in _ _ R1) as I.
  constructor; cbn [d_att d_reg d_map d_busy d_key d_dead with_map seen with_dead t_att t_reg t_refs t_next t_objs t_store t_odir t_key x_objs x_odir x_store x_next x_refs x_key]; try apply R1.
  - rewrite !map_app, !del_fst, (q_keys _ _ R1). auto.
  - rewrite map_app. apply NoDup_app_iff. split; [apply del_NoDup, R|]. split; [repeat constructor; auto|]. intros x X [<-|[]]. auto.
  - rewrite map_app. apply NoDup_app_iff. split; [apply del_snd_NoDup, R1|]. split; [repeat constructor; auto|]. intros x X [<-|[]]. apply in_map_iff in X. destruct X as ([j y] & Ey & X). cbn in Ey. subst y. apply del_In in X. destruct X as [X1 X2]. apply X1. eapply local_fun; eauto.
  - pose proof (q_range _ _ R1) as Fg. rewrite Forall_forall in *. intros x X. rewrite map_app in X. apply in_app_iff in X. apply Fg. destruct X as [X|[<-|[]]]; [eapply del_snd; eauto|]. apply in_map_iff. exists (old, c). auto.
  - intros j x X. apply in_app_iff. destruct (Z.eq_dec j new) as [->|]; [rewrite upd_same in X; right; left; congruence|]. rewrite upd_other in X by auto. left. destruct (Z.eq_dec j old) as [->|]; [rewrite upd_same in X; discriminate|]. rewrite upd_other in X by auto. apply del_In. split; auto. apply (q_coh _ _ R1); auto.
  - intros x. destruct (Z.eq_dec x o) as [->|]; [rewrite !upd_same; auto|rewrite !upd_other by auto; apply (q_key _ _ R1)].
  - intros j x X. apply Hother in X. destruct X as [[-> ->]|(X1 & X2 & X3 & X4)]; [apply upd_same|]. rewrite upd_other by auto. apply (q_kin _ _ R); auto.
  - intros j x X. apply Hother in X. destruct X as [[-> ->]|(X1 & X2 & X3 & X4)]; eapply (q_busy _ _ R); eauto.
  - intros j x X. apply Hother in X. destruct X as [[-> ->]|(X1 & X2 & X3 & X4)].
    + rewrite upd_same, seen_none, Z.eqb_refl. split; discriminate.
    + rewrite !upd_other by auto. apply (q_dead _ _ R1); auto.
  - intros x X D. apply (q_out _ _ R1); auto. intros j Y. destruct (Z.eq_dec j old) as [->|].
    + apply (X new). apply in_app_iff. right. left. f_equal. symmetry. eapply In_fun; eauto. apply R.
    + apply (X j). apply in_app_iff. left. apply del_In. auto.
  - cbn in I. destruct (d_att l).
    + intros j k' x Hc' X. apply Hother in X. apply in_app_iff in Hc'. destruct X as [[-> ->]|(X1 & X2 & X3 & X4)].
      * destruct Hc' as [Hc'|[Hc'|[]]]. { exfalso. apply Fr. eapply In_key; eauto. } injection Hc' as <-. apply (I old c o); auto.
      * destruct Hc' as [Hc'|[Hc'|[]]]; [|congruence]. apply del_In in Hc'. apply (I j k' x); tauto.
    + intros j x X. apply Hother in X. destruct X as [[-> ->]|(X1 & X2 & X3 & X4)].
      * rewrite upd_same. split; auto. apply (I old o H).
      * rewrite !upd_other by auto. apply (I j x X4).
Qed.

(** for loops over the entries that detach each object *)
Lemma clear_srel : forall s l, srel s l -> exists s', t_clear s = (s', Ok tt) /\ srel s' (with_map (seen l (map snd (d_map l))) []) /\ t_reg s' = t_reg s.
Proof.
  intros s l R. unfold t_clear, t_each, tbind at 1. rewrite (q_keys _ _ R).
  destruct (t_for_rule (d_map l) (fun a s' => t_att s' = t_att s /\ t_reg s' = t_reg s /\ t_refs s' = t_refs s /\ t_store s' = t_store s /\ t_key s' = t_key s /\
     (forall k, t_objs s' k = t_objs s k \/ exists o, In (k, o) (d_map l) /\ t_objs s' k = Some o) /\
     (forall o, t_odir s' o = if existsb (Z.eqb o) (map snd a) then None else t_odir s o)) (fun _ o => t_obj_detach o)) with (b := d_map l) (a := @nil (Z * Z)) (s := s) as (s1 & E & H1 & H2 & H3 & H4 & H5 & H6 & H7).
  - intros a k o b s1 Ed (H1 & H2 & H3 & H4 & H5 & H6 & H7). assert (Hin : In (k, o) (d_map l)) by (rewrite Ed; apply in_or_app; right; left; auto).
    assert (Rd : exists c, t_read k s1 = (x_objs c s1, Ok o) /\ forall j, c j = t_objs s1 j \/ exists y, In (j, y) (d_map l) /\ c j = Some y).
    { unfold t_read. destruct (t_objs s1 k) as [o'|] eqn:Ek.
      - assert (o' = o). { assert (In (k, o') (d_map l)). { destruct (H6 k) as [X|(y & Y & X)]; [rewrite Ek in X; apply (q_coh _ _ R); auto|congruence]. } eapply In_fun; eauto. apply R. } subst o'.
        exists (t_objs s1). split; [destruct s1; auto|auto].
      - assert (N : t_objs s k = None) by (destruct (H6 k) as [X|(y & Y & X)]; congruence). destruct (local_of s l k o R Hin) as (c & Hc & Gc). rewrite H3, Gc, H1, H4, (q_att _ _ R). pose proof (q_in _ _ R) as I. destruct (d_att l); cbn [negb].
        + destruct (I k c o Hc Hin) as [S1 _]. rewrite S1. eexists. split; [reflexivity|]. intros j. destruct (Z.eq_dec j k) as [->|]; [right; exists o; split; auto; apply upd_same|left; apply upd_other; auto].
        + destruct (I k o Hin). congruence. }
    destruct Rd as (c & E1 & C). eexists. eexists. split; [exact E1|]. split; [reflexivity|]. cbn. repeat split; auto.
    + intros j. destruct (C j) as [X|X]; auto. rewrite X. auto.
    + intros x. rewrite map_app, existsb_app. cbn. rewrite orb_false_r. destruct (Z.eq_dec x o) as [->|]; [rewrite upd_same, Z.eqb_refl, orb_true_r; auto|]. rewrite upd_other by auto. replace (x =? o) with false by lia. rewrite orb_false_r. auto.
  - auto.
  - repeat split; auto.
  - rewrite E. unfold tmod. eexists. split; [reflexivity|]. split; [|exact H2].
    constructor; cbn [d_att d_reg d_map d_busy d_key d_dead with_map seen with_dead t_att t_reg t_refs t_next t_objs t_store t_odir t_key x_objs x_odir x_store x_next x_refs]; try solve [constructor|intros ? ? []|lia|auto].
    + rewrite H1. apply R.
    + discriminate.
    + intros o. rewrite H5. apply R.
    + intros o _ D. rewrite H7. unfold revive in D. destruct (existsb (Z.eqb o) (map snd (d_map l))) eqn:Ex.
      * apply existsb_eqb in Ex. apply in_map_iff in Ex. destruct Ex as ([k y] & <- & Y). eapply (q_busy _ _ R); eauto.
      * apply (q_out _ _ R); auto. apply member_not. exact Ex.
    + destruct (d_att l); intros; solve [contradiction].
Qed.

Lemma items_cached : forall s (b : list (Z * Z)), (forall k o, In (k, o) b -> t_objs s k = Some o) -> t_for (map fst b) (fun _ _ => tret tt) s = (s, Ok b).
Proof.
  induction b as [|[k o] b IH]; intros H; auto. cbn [map fst t_for]. unfold tbind at 1, t_read. rewrite (H k o) by (left; auto). unfold tbind at 1, tret at 1. unfold tbind at 1. rewrite IH by (intros; apply H; right; auto). auto.
Qed.
Lemma tdetach_all_ok : forall xs s, exists d, t_detach_all xs s = (x_odir d s, Ok tt) /\ forall o, d o = if existsb (Z.eqb o) xs then None else t_odir s o.
Proof.
  induction xs as [|x xs IH]; intros s; cbn [t_detach_all].
  - exists (t_odir s). split; [destruct s; reflexivity|auto].
  - unfold tbind, t_obj_detach, tmod. destruct (IH (x_odir (upd (t_odir s) x None) s)) as (d & E & H). rewrite E. exists d. split; [reflexivity|]. intros o. rewrite H. cbn. unfold upd. destruct (o =? x); cbn; auto. destruct (existsb _ _); auto.
Qed.

Lemma owned_nil : forall s l, owned s l -> d_reg l = false -> d_map l = [].
Proof. intros s l [_ W] E. destruct (d_map l); auto. exfalso. rewrite W in E; discriminate. Qed.

Lemma attach_loop : forall s l, srel s l -> d_att l = false -> forall t b a s', d_map l = a ++ b ->
  t_refs s' = t_refs s -> t_objs s' = t_objs s -> t_key s' = t_key s -> t_next s' = t_next s -> t_reg s' = t_reg s -> t_att s' = t ->
  (forall k c o, In (k, c) (t_refs s) -> In (k, o) a -> tsettled s' c o) -> (forall o, (forall k, ~ In (k, o) a) -> t_odir s' o = t_odir s o) ->
  exists s2, t_attach_loop (map fst b) s' = (s2, Ok tt) /\
  t_refs s2 = t_refs s /\ t_objs s2 = t_objs s /\ t_key s2 = t_key s /\ t_next s2 = t_next s /\ t_reg s2 = t_reg s /\ t_att s2 = t /\
  (forall k c o, In (k, c) (t_refs s) -> In (k, o) (d_map l) -> tsettled s2 c o) /\ (forall o, (forall k, ~ In (k, o) (d_map l)) -> t_odir s2 o = t_odir s o).
Proof.
  intros s l R A t. pose proof (q_in _ _ R) as I. rewrite A in I. induction b as [|[k o] b IH]; intros a s' Ed H1 H2 H3 H4 H5 H6 H7 H8.
  - exists s'. rewrite app_nil_r in Ed. rewrite Ed. repeat split; auto; apply (H7 k); auto.
  - cbn [map fst t_attach_loop]. assert (Hin : In (k, o) (d_map l)) by (rewrite Ed; apply in_or_app; right; left; auto). destruct (I k o Hin) as [I1 I2]. rewrite H2, I1. destruct (local_of s l k o R Hin) as (c & Hc & Gc).
    assert (Hna : forall j, ~ In (j, o) a). { intros j X. assert (j = k) by (eapply obj_fun; [exact R| |exact Hin]; rewrite Ed; apply in_or_app; auto). subst j. pose proof (q_nodup _ _ R) as N. rewrite Ed, map_app in N. cbn in N. apply NoDup_remove_2 in N. apply N. apply in_or_app. left. eapply In_key; eauto. }
    assert (Od : t_odir s' o = None) by (rewrite H8 by auto; auto).
    assert (P : exists t', t_place k o s' = (x_store t' (x_odir (upd (t_odir s') o (Some (Here c))) s'), Ok tt) /\ t' c = Some (Some o) /\ forall x, x <> c -> t' x = t_store s' x).
    { unfold t_place. rewrite H1, Gc. set (s1 := match t_store s' c with None => x_store (upd (t_store s') c (Some None)) s' | Some _ => s' end).
      assert (Q : exists t0, s1 = x_store t0 s' /\ forall x, x <> c -> t0 x = t_store s' x). { unfold s1. destruct (t_store s' c); [exists (t_store s'); split; [destruct s'; auto|auto]|]. eexists. split; [reflexivity|]. intros. apply upd_other; auto. }
      destruct Q as (t0 & -> & Q). cbn [t_odir x_store]. rewrite Od. cbn [same_name]. unfold t_obj_attach. cbn [t_odir x_store]. rewrite Od. eexists. split; [reflexivity|]. split; [apply upd_same|]. intros x X. cbn. rewrite upd_other; auto. }
    destruct P as (t' & P1 & P2 & P3). unfold tbind at 1. rewrite P1. apply (IH (a ++ [(k, o)])).
    + rewrite <- app_assoc. auto.
    + auto.
    + auto.
    + auto.
    + auto.
    + auto.
    + auto.
    + intros j c' x Hc' X. apply in_app_iff in X. destruct X as [X|[X|[]]].
      * assert (j <> k) by (intros ->; apply (Hna k); assert (x = o) by (eapply In_fun; [apply (q_nodup _ _ R)| |exact Hin]; rewrite Ed; apply in_or_app; auto); subst; auto).
        destruct (H7 j c' x Hc' X) as [S1 S2]. split; cbn; [rewrite P3; auto; intros ->; apply H; eapply local_fun; eauto|]. rewrite upd_other; auto. intros ->. apply (Hna j); auto.
      * injection X as <- <-. assert (c' = c) by (eapply In_fun; eauto; apply (q_refs_nodup _ _ R)). subst c'. split; cbn; auto. apply upd_same.
    + intros x X. cbn. rewrite upd_other by (intros ->; apply (X k); apply in_or_app; right; left; auto). apply H8. intros j Y. apply (X j). apply in_or_app; auto.
Qed.

Lemma key_rel : forall s l o k, srel s l -> (forall j, ~ In (j, o) (d_map l)) -> srel (x_key (upd (t_key s) o (Some k)) s) (Dic (d_att l) (d_reg l) (d_map l) (d_busy l) (upd (d_key l) o (Some k)) (d_dead l)).
Proof.
  intros s l o k R H. constructor; cbn [d_att d_reg d_map d_busy d_key d_dead t_att t_reg t_refs t_next t_objs t_store t_odir t_key x_key]; try apply R.
  - intros x. destruct (Z.eq_dec x o) as [->|]; [rewrite !upd_same; auto|rewrite !upd_other by auto; apply R].
  - intros j x X. rewrite upd_other by (intros ->; apply (H j); auto). apply (q_kin _ _ R); auto.
Qed.


Section Steps.
Variable okclass okroot : Z -> bool.
Variable swappable : bool.


Lemma check_srel : forall s l vs, srel s l -> (forall v, In v vs -> d_dead l v = false) ->
  t_check okclass okroot vs s = (s, match drefuse okclass okroot l vs with Some e => Err e | None => Ok tt end) /\
  (drefuse okclass okroot l vs = None -> forall v, In v vs -> d_busy l v = false).
Proof.
  intros s l vs R. induction vs as [|v vs IH]; intros D; cbn; [split; auto; intros _ v []|].
  destruct (IH ltac:(intros; apply D; right; auto)) as [IH1 IH2]. pose proof (odir_attached s l v R (D v (or_introl eq_refl))) as O.
  destruct (okclass v); cbn [negb]; [|split; [auto|discriminate]]. destruct (okroot v); cbn [negb orb]; [|split; [auto|discriminate]].
  destruct (t_odir s v) eqn:E; rewrite <- O; [split; [auto|discriminate]|]. split; auto. intros H x [<-|X]; auto. unfold attached_obj in O. destruct (d_busy l v); auto; discriminate.
Qed.

Lemma extend_srel : forall s l vs, srel s l -> owned s l -> (forall v, In v vs -> d_key l v <> None /\ d_dead l v = false) ->
  exists s', t_extend okclass okroot vs s = (s', match snd (dext okclass okroot l vs) with Ok _ => Ok tt | Err e => Err e end) /\ srel s' (fst (dext okclass okroot l vs)) /\ owned s' (fst (dext okclass okroot l vs)).
Proof.
  intros s l vs R W H. unfold t_extend. destruct (check_srel s l vs R) as [E1 E2]; [intros; apply H; auto|]. unfold tbind at 1. rewrite E1. unfold dext. destruct (drefuse okclass okroot l vs); [exists s; auto|]. specialize (E2 eq_refl).
  destruct (adds_rel vs s l R) as (s1 & E & R1 & G1). { intros v Hv. destruct (H v Hv). auto. } unfold tbind at 1. rewrite E. unfold tmod. eexists. split; [reflexivity|]. cbn [fst snd]. split; [|split; auto].
  apply reg_rel. exact (dreg_rel _ _ true R1).
Qed.

Lemma detach_srel : forall s l, srel s l -> owned s l -> exists s', q_detach s = (s', Ok tt) /\ srel s' (fst (dspec okclass okroot swappable SDetach l)) /\ owned s' (fst (dspec okclass okroot swappable SDetach l)).
Proof.
  intros s l R W. unfold q_detach. rewrite (proj1 W). destruct (d_reg l) eqn:Er; cbn [negb].
  - destruct (items_rel s l R) as (s1 & E1 & R1 & G1 & A1). unfold tbind at 1. rewrite E1. destruct (tdetach_all_ok (map snd (d_map l)) s1) as (d & E2 & Hd). unfold tbind at 1. rewrite E2.
    assert (E3 : t_items (x_odir d s1) = (x_odir d s1, Ok (d_map l))). { unfold t_items, t_each. cbn [t_refs x_odir]. rewrite (q_keys _ _ R1). apply items_cached. intros k o H. cbn. auto. }
    unfold tbind at 1. rewrite E3. unfold tmod. eexists. split; [reflexivity|]. cbn [dspec fst]. split; [|split; [cbn; rewrite G1, (proj1 W); auto|exact (proj2 W)]].
    constructor; cbn [d_att d_reg d_map d_busy d_key d_dead with_map seen with_dead t_att t_reg t_refs t_next t_objs t_store t_odir t_key x_objs x_odir x_store x_next x_refs x_att]; try apply R1; auto.
    + intros k o X. apply get_In in X; auto. apply R.
    + intros k o X. assert (Y : dict_get Z.eqb (d_map l) k = Some o) by (apply get_In; auto; apply R). rewrite Y. unfold revive. replace (existsb (Z.eqb o) (map snd (d_map l))) with true; [split; discriminate|]. symmetry. apply member_In. eauto.
    + intros o X D. rewrite Hd. destruct (existsb (Z.eqb o) (map snd (d_map l))) eqn:Ex. { apply member_In in Ex. destruct Ex as (k & Ex). exfalso. apply (X k). auto. } apply (q_out _ _ R1); auto.
    + intros k o X. split; [apply get_In; auto; apply R|]. rewrite Hd. replace (existsb (Z.eqb o) (map snd (d_map l))) with true; auto. symmetry. apply member_In. eauto.
  - pose proof (owned_nil s l W Er) as N. eexists. split; [reflexivity|]. cbn [dspec fst]. split; [|split; [exact (proj1 W)|exact (proj2 W)]].
    constructor; cbn [d_att d_reg d_map d_busy d_key d_dead with_map seen with_dead t_att t_reg t_refs t_next t_objs t_store t_odir t_key x_objs x_odir x_store x_next x_refs x_att]; try apply R; auto.
    + intros k o X. rewrite N in X. destruct X.
    + intros o X D. apply (q_out _ _ R); auto. rewrite N in D. exact D.
    + rewrite N. intros k o [].
Qed.

Lemma attach_srel : forall s l t, srel s l -> owned s l -> d_att l = false -> exists s', q_attach t s = (s', Ok tt) /\ srel s' (fst (dspec okclass okroot swappable (SAttach t) l)) /\ owned s' (fst (dspec okclass okroot swappable (SAttach t) l)).
Proof.
  intros s l t R W A. unfold q_attach. rewrite (q_att _ _ R), A, (proj1 W). cbn [dspec]. rewrite A. cbn [fst]. pose proof (q_in _ _ R) as I. rewrite A in I. destruct (d_reg l) eqn:Er.
  - unfold t_attach. cbn [t_att x_store x_att negb t_refs]. rewrite (q_keys _ _ R).
    destruct (attach_loop s l R A true (d_map l) [] (x_store t (x_att true s))) as (s2 & E & H1 & H2 & H3 & H4 & H5 & H6 & H7 & H8); auto; try (intros; contradiction).
    exists s2. split; auto. split; [|split; [cbn; rewrite H5, (proj1 W); auto|cbn; auto]]. constructor; cbn [d_att d_reg d_map d_busy d_key d_dead]; rewrite ?H1, ?H2, ?H3, ?H4, ?H6; auto; try apply R; auto.
    + intros o X D. rewrite H8 by auto. apply (q_out _ _ R); auto.
  - pose proof (owned_nil s l W Er) as N. eexists. split; [reflexivity|]. split; [|split; [cbn; rewrite (proj1 W); auto|cbn; rewrite N; congruence]].
    constructor; cbn [d_att d_reg d_map d_busy d_key d_dead with_map seen with_dead t_att t_reg t_refs t_next t_objs t_store t_odir t_key x_objs x_odir x_store x_next x_refs x_att]; try apply R; auto.
    rewrite N. intros k c o _ [].
Qed.

Theorem sstep : forall o s l, srel s l -> owned s l -> dallowed o l ->
  exists s', srun_op okclass okroot swappable o s = (s', snd (dspec okclass okroot swappable o l)) /\ srel s' (fst (dspec okclass okroot swappable o l)) /\ owned s' (fst (dspec okclass okroot swappable o l)).
Proof.
  intros op s l R W A. destruct op; cbn [dallowed] in A; cbn [srun_op].
  - destruct (get_srel s l k R) as (s' & E & R' & G & _). cbn [dspec fst snd]. unfold tlift, tbind. rewrite E. exists s'. split; auto. split; auto. unfold owned, alive_get. rewrite G. destruct (dict_get _ _ _); exact W.
  - destruct (get_srel s l k R) as (s' & E & R' & G & _). cbn [dspec fst snd]. unfold tlift, t_item, tbind. rewrite E. exists s'. split; [destruct (dict_get _ _ _); auto|]. split; auto. unfold owned, alive_get. rewrite G. destruct (dict_get _ _ _); exact W.
  - cbn [dspec fst snd]. unfold tlift, tbind, t_contains. exists s. split; auto. f_equal. do 2 f_equal. pose proof (contains_rel s l k R) as C. destruct (existsb (Z.eqb k) (map fst (d_map l))) eqn:E.
    + apply existsb_eqb in E. destruct (dict_get Z.eqb (t_refs s) k); auto. exfalso. apply (get_none (d_map l) k) in E; auto. apply C. auto.
    + destruct (dict_get Z.eqb (t_refs s) k) eqn:G; auto. exfalso. assert (dict_get Z.eqb (d_map l) k = None) by (apply get_none; intros X; apply existsb_eqb in X; congruence). apply C in H. congruence.
  - cbn [dspec fst snd]. exists s. split; auto. f_equal. do 2 f_equal. assert (Hl : zlen (map fst (t_refs s)) = zlen (map fst (d_map l))) by (rewrite (q_keys _ _ R); auto). unfold zlen in *. rewrite !map_length in Hl. auto.
  - destruct (items_rel s l R) as (s' & E & R' & G & _). cbn [dspec fst snd]. unfold tlift, tbind. rewrite E. exists s'. split; auto. split; auto. unfold owned. rewrite G. exact W.
  - destruct (extend_srel s l vs R W A) as (s' & E & R' & W'). cbn [dspec]. unfold tlift, tbind. rewrite E. exists s'. split; auto. unfold dext. destruct (drefuse okclass okroot l vs); auto.
  - cbn [dspec]. unfold tlift, tbind at 1. destruct (dict_get Z.eqb (d_map l) k) as [o|] eqn:G.
    + apply get_In in G; [|apply R]. destruct (pop_srel s l k o R G) as (s' & E & R' & G'). rewrite E. exists s'. split; auto. split; auto. cbn [fst]. split; [rewrite G'; apply W|]. intros _. apply (proj2 W). intros X. rewrite X in G. destruct G.
    + unfold t_pop. destruct (get_srel s l k R) as (s' & E & R' & G' & _). unfold tbind at 1. rewrite E, G. exists s'. split; auto. unfold alive_get in R'. rewrite G in R'. split; auto. unfold owned. rewrite G'. exact W.
  - destruct (clear_srel s l R) as (s' & E & R' & G). cbn [dspec fst snd]. unfold tlift, tbind. rewrite E. exists s'. split; auto. split; auto. split; [rewrite G; apply W|]. intros X. cbn in X. congruence.
  - destruct (clear_srel s l R) as (s1 & E1 & R1 & G1). cbn [dspec].
    destruct (extend_srel s1 (with_map (seen l (map snd (d_map l))) []) vs R1) as (s' & E & R' & W'). { split; [rewrite G1; apply W|]. intros X. cbn in X. congruence. } { intros v Hv. destruct (A v Hv) as [X Y]. split; auto. cbn. unfold revive. destruct (existsb _ _); auto. }
    unfold tlift, tbind. rewrite E1, E. exists s'. split; auto. unfold dext. destruct (drefuse okclass okroot _ vs); auto.
  - cbn [dspec]. unfold tlift, tbind at 1. destruct (dict_get Z.eqb (d_map l) old) as [o|] eqn:G.
    + apply get_In in G; [|apply R]. destruct (swap_srel s l old new o R G A) as (s' & E & R' & G'). rewrite E. exists s'. split; auto. split; auto. cbn [fst]. split; [rewrite G'; apply W|]. intros _. apply (proj2 W). intros X. rewrite X in G. destruct G.
    + unfold t_swap. destruct (get_srel s l old R) as (s' & E & R' & G' & _). unfold tbind at 1. rewrite E, G. exists s'. split; auto. unfold alive_get in R'. rewrite G in R'. split; auto. unfold owned. rewrite G'. exact W.
  - cbn [dspec]. destruct A as [A1 A2]. unfold tlift, tbind at 1, t_setkey. rewrite (q_key _ _ R). pose proof (odir_attached s l o R A1) as O. unfold attached_obj in O. destruct (member l o) eqn:M.
    + destruct A2 as [A2 A3]. pose proof M as M'. apply member_In in M'. destruct M' as (old & M'). pose proof (q_kin _ _ R _ _ M') as K. rewrite K. rewrite A2, orb_true_r in O. destruct (t_odir s o); [|discriminate]. destruct swappable; [|exists s; auto].
      destruct (swap_srel s l old k o R M') as (s' & E & R' & G'). { apply A3. auto. } unfold tbind at 1. rewrite E. unfold tmod. eexists. split; [reflexivity|]. cbn [fst]. split.
      * constructor; cbn [t_att t_reg t_refs t_next t_objs t_store t_odir t_key x_key]; try apply R'. intros x. destruct (Z.eq_dec x o) as [->|]; [cbn; rewrite !upd_same; auto|rewrite upd_other by auto; apply R'].
      * split; [cbn; rewrite G'; apply W|]. intros _. apply (proj2 W). intros X. rewrite X in M'. destruct M'.
    + rewrite A2, andb_false_r in O. cbn in O. destruct (t_odir s o); [discriminate|]. eexists. split; [reflexivity|]. cbn [fst]. split; [|exact W]. apply key_rel; auto. apply member_not; auto.
  - cbn [dspec fst snd]. rewrite (q_att _ _ R). destruct (d_att l) eqn:Ea; [|exists s; auto]. eexists. split; [reflexivity|]. split; [|exact W]. pose proof (q_in _ _ R) as I. rewrite Ea in I.
    constructor; cbn [d_att d_reg d_map d_busy d_key d_dead with_map seen with_dead t_att t_reg t_refs t_next t_objs t_store t_odir t_key x_objs]; try apply R.
    + intros k o X. destruct (keep k); [|discriminate]. apply (q_coh _ _ R); auto.
    + intros k o X. rewrite orb_true_iff. destruct (keep k) eqn:Kk.
      * rewrite <- (q_dead _ _ R k o X). split; auto. intros [Y|Y]; auto. apply existsb_exists in Y. destruct Y as ([j y] & Y1 & Y2). cbn in Y2. apply andb_true_iff in Y2. destruct Y2 as [Y2 Y3]. assert (y = o) by lia. subst. assert (j = k) by (eapply obj_fun; eauto). subst. rewrite Kk in Y3. discriminate.
      * split; auto. intros _. right. apply existsb_exists. exists (k, o). split; auto. cbn. rewrite Kk, Z.eqb_refl. auto.
    + intros o X D. apply orb_false_iff in D. apply (q_out _ _ R); tauto.
    + rewrite Ea. exact I.
  - unfold tlift, tbind. destruct (d_att l) eqn:Ea.
    + cbn [dspec]. rewrite Ea. unfold q_attach. rewrite (q_att _ _ R), Ea. exists s. auto.
    + destruct (attach_srel s l t R W Ea) as (s' & E & R' & W'). rewrite E. exists s'. split; auto. cbn [dspec]. rewrite Ea. auto.
  - unfold tlift, tbind. destruct (detach_srel s l R W) as (s' & E & R' & W'). rewrite E. exists s'. auto.
  - cbn [dspec fst snd]. destruct A as [A1 A2]. eexists. split; [reflexivity|]. split; [|exact W]. pose proof (member_not _ _ A2) as M. pose proof (q_in _ _ R) as I.
    constructor; cbn [d_att d_reg d_map d_busy d_key d_dead t_att t_reg t_refs t_next t_objs t_store t_odir t_key x_odir]; try apply R.
    + intros k x X. rewrite upd_other by (intros ->; apply (M k); auto). eapply (q_busy _ _ R); eauto.
    + intros x X D. destruct (Z.eq_dec x o) as [->|]; [rewrite !upd_same; destruct d; auto|rewrite !upd_other by auto; apply (q_out _ _ R); auto].
    + destruct (d_att l).
      * intros k c x Hc X. destruct (I k c x Hc X) as [S1 S2]. split; cbn; auto. rewrite upd_other; auto. intros ->. apply (M k); auto.
      * intros k x X. destruct (I k x X) as [S1 S2]. rewrite upd_other; auto. intros ->. apply (M k); auto.
Qed.

Lemma srun_rel : forall ops s l, srel s l -> owned s l -> dall_allowed okclass okroot swappable ops l ->
  snd (srun okclass okroot swappable ops s) = snd (dspec_run okclass okroot swappable ops l) /\ srel (fst (srun okclass okroot swappable ops s)) (fst (dspec_run okclass okroot swappable ops l)).
Proof.
  induction ops as [|o ops IH]; intros s l R W A; auto. destruct A as [A1 A2]. cbn [srun dspec_run]. destruct (sstep o s l R W A1) as (s1 & E & R1 & W1). rewrite E. destruct (dspec okclass okroot swappable o l) as [l1 x]. cbn [fst snd] in *.
  specialize (IH s1 l1 R1 W1 A2). destruct (srun okclass okroot swappable ops s1), (dspec_run okclass okroot swappable ops l1). cbn in *. destruct IH. split; congruence.
Qed.
End Steps.

(** ** C33 *)

Definition start (att : bool) (odir : Z -> option dref) (key : Z -> option Z) : dic :=
  Dic att false [] (fun o => match odir o with None => false | Some _ => true end) key (fun _ => false).
Lemma start_rel : forall att t odir key, (forall o, match odir o with Some (Here _) => False | _ => True end) ->
  srel (sfresh att t odir key) (start att odir key) /\ owned (sfresh att t odir key) (start att odir key).
Proof.
  intros att t odir key Ho. split; [|split; cbn; congruence]. constructor; cbn; auto; try constructor; try lia; try discriminate; try (intros ? ? C; solve [destruct C]).
  - intros o _ _. specialize (Ho o). destruct (odir o) as [[|]|]; auto.
  - destruct att; intros; contradiction.
Qed.

(** Every history gives the results a dict gives: on a new set ... *)
Theorem C33_map : forall okclass okroot swappable ops att t odir key, (forall o, match odir o with Some (Here _) => False | _ => True end) ->
  dall_allowed okclass okroot swappable ops (start att odir key) ->
  snd (srun okclass okroot swappable ops (sfresh att t odir key)) = snd (dspec_run okclass okroot swappable ops (start att odir key)).
Proof. intros okclass okroot swappable ops att t odir key Ho A. destruct (start_rel att t odir key Ho) as [R W]. apply srun_rel; auto. Qed.

(** ... and on one read from a file: references from its index, every storage holding the object with that
    key, nothing in the cache yet; the objects of the set have no Python object. *)
Definition loaded (refs : list (Z * Z)) next store odir key : sset := SSet true true refs next (fun _ => None) store odir key.
Definition loaded_dic (m : list (Z * Z)) (odir : Z -> option dref) (key : Z -> option Z) : dic :=
  Dic true true m (fun o => match odir o with Some (There _) => true | _ => false end) key (fun o => existsb (Z.eqb o) (map snd m)).
Theorem C33_loaded : forall okclass okroot swappable ops refs next m store odir key,
  NoDup (map snd refs) -> Forall (fun c => 0 <= c < next) (map snd refs) -> 0 <= next -> NoDup (map fst m) -> map fst refs = map fst m ->
  (forall k o, In (k, o) m -> key o = Some k) ->
  (forall k c o, In (k, c) refs -> In (k, o) m -> store c = Some (Some o) /\ odir o = Some (Here c)) ->
  (forall o, ~ In o (map snd m) -> match odir o with Some (Here _) => False | _ => True end) ->
  dall_allowed okclass okroot swappable ops (loaded_dic m odir key) ->
  snd (srun okclass okroot swappable ops (loaded refs next store odir key)) = snd (dspec_run okclass okroot swappable ops (loaded_dic m odir key)).
Proof.
  intros okclass okroot swappable ops refs next m store odir key H1 H2 H3 H4 H5 H6 H7 H8 A. apply srun_rel; auto; [|split; auto].
  assert (L : forall k o, In (k, o) m -> exists c, In (k, c) refs) by (intros k o X; apply key_In; rewrite H5; eapply In_key; eauto).
  constructor; cbn; auto.
  - discriminate.
  - intros k o X. destruct (L k o X) as (c & Hc). destruct (H7 k c o Hc X) as [_ ->]. auto.
  - intros k o X. split; auto. intros _. apply existsb_eqb. apply in_map_iff. exists (k, o). auto.
  - intros o X D. assert (Y : ~ In o (map snd m)) by (intros C; apply existsb_eqb in C; congruence). specialize (H8 o Y). destruct (odir o) as [[|]|]; auto.
Qed.

(** the hypotheses of C33 are met by a history of every operation *)
Definition yes (_ : Z) : bool := true.
Definition no_dirs (_ : Z) : option dref := None.
Definition empty_dir (_ : Z) : option (option Z) := None.
Definition keys (o : Z) : option Z := if o =? 0 then None else Some (10 * o).
Definition ssample : list sop :=
  [SExtend [1; 2; 3]; SPop 20; SKey 4 10; SExtend [4; 1; 4]; SAttach (fun c => if c =? 1 then Some (Some 9) else None); SGc (fun k => k =? 30); SItems;
   SEnv 6 (Some (Some 2)); SExtend [6]; SExtend [3]; SKey 3 35; SGet 30; SGet 35; SSwap 10 15; SGc (fun _ => false); SContains 15; SItem 10;
   SDetach; SValue [3; 5]; SGet 50; SLen; SAttach empty_dir; SClear; SExtend [5]; SItems].
Example C33_case : dall_allowed yes yes true ssample (start false no_dirs keys) /\
  snd (dspec_run yes yes true ssample (start false no_dirs keys)) =
  [Ok QUnit; Ok (QObj (Some 2)); Ok QUnit; Ok QUnit; Ok QUnit; Ok QUnit; Ok (QItems [(10, 4); (30, 3)]); Ok QUnit; Err AttachError; Err AttachError; Ok QUnit; Ok (QObj None); Ok (QObj (Some 3)); Ok QUnit; Ok QUnit; Ok (QBool true); Err KeyError;
   Ok QUnit; Ok QUnit; Ok (QObj (Some 5)); Ok (QInt 2); Ok QUnit; Ok QUnit; Ok QUnit; Ok (QItems [(50, 5)])].
Proof.
  split; [|vm_compute; reflexivity]. vm_compute.
  repeat match goal with |- _ /\ _ => split | H : In _ _ |- _ => destruct H | H : _ \/ _ |- _ => destruct H | H : False |- _ => destruct H | |- forall _, _ => intros | |- ~ _ => intros ? | |- True => exact I | H : _ = ?x |- _ => subst x
    | H : Some _ = Some _ |- _ => injection H as H | |- _ => discriminate | |- _ => reflexivity | |- _ = _ \/ _ => right end.
Qed.

(** *** Storage names *)
Section Keys.
Variable okclass okroot : Z -> bool.
Variable swappable : bool.
Definition tkeys_ok (s : sset) : Prop := NoDup (map snd (t_refs s)) /\ Forall (fun c => 0 <= c < t_next s) (map snd (t_refs s)) /\ 0 <= t_next s.
Definition tsafe {A} (m : T A) : Prop := forall s, tkeys_ok s -> tkeys_ok (fst (m s)).
Lemma tsafe_bind : forall A B (m : T A) (f : A -> T B), tsafe m -> (forall a, tsafe (f a)) -> tsafe (tbind m f).
Proof. intros A B m f Hm Hf s K. unfold tbind. specialize (Hm s K). destruct (m s) as [s1 [a|e]]; cbn in *; auto. apply Hf. auto. Qed.
Lemma tsafe_ret : forall A (a : A), tsafe (tret a). Proof. intros A a s K. exact K. Qed.
Lemma tsafe_raise : forall A e, tsafe (@traise A e). Proof. intros A e s K. exact K. Qed.
Lemma tsafe_read : forall k, tsafe (t_read k).
Proof. intros k s K. unfold t_read. destruct (t_objs s k); auto. destruct (dict_get _ _ _); auto. destruct (negb _); auto. destruct (t_store s _) as [[|]|]; auto. Qed.
Lemma tsafe_get : forall k, tsafe (t_get k).
Proof. intros k. apply tsafe_bind; [intros s K; exact K|]. intros [|]; [|apply tsafe_ret]. apply tsafe_bind; [apply tsafe_read|]. intros. apply tsafe_ret. Qed.
Lemma tsafe_for : forall body, (forall k o, tsafe (body k o)) -> forall ks, tsafe (t_for ks body).
Proof. intros body H. induction ks as [|k ks IH]; cbn [t_for]; [apply tsafe_ret|]. apply tsafe_bind; [apply tsafe_read|]. intros o. apply tsafe_bind; auto. intros _. apply tsafe_bind; auto. intros. apply tsafe_ret. Qed.
Lemma tsafe_each : forall body, (forall k o, tsafe (body k o)) -> tsafe (t_each body).
Proof. intros body H s K. unfold t_each. apply tsafe_for; auto. Qed.
Lemma tsafe_items : tsafe t_items. Proof. apply tsafe_each. intros. apply tsafe_ret. Qed.
Lemma tsafe_detach : forall o, tsafe (t_obj_detach o). Proof. intros o s K. exact K. Qed.
Lemma tsafe_place : forall k o, tsafe (t_place k o).
Proof.
  intros k o s K. unfold t_place. destruct (dict_get _ _ _); auto. set (s1 := match t_store s z with Some _ => s | None => x_store (upd (t_store s) z (Some None)) s end). assert (K1 : tkeys_ok s1) by (unfold s1; destruct (t_store s z); exact K).
  cbn zeta. destruct (same_name _ _); auto. unfold t_obj_attach. destruct (t_odir s1 o); exact K1.
Qed.
Lemma tsafe_loop : forall ks, tsafe (t_attach_loop ks).
Proof. induction ks as [|k ks IH]; cbn [t_attach_loop]; [apply tsafe_ret|]. intros s K. destruct (t_objs s k); (apply tsafe_bind; [|intros; apply IH|exact K]); [apply tsafe_place|apply tsafe_ret]. Qed.
Lemma set_snd_In : forall (d : list (Z * Z)) k v x, In x (map snd (dict_set Z.eqb d k v)) -> x = v \/ In x (map snd d).
Proof. induction d as [|[a b] d IH]; intros k v x H; cbn in *; [intuition|]. destruct (a =? k); cbn in *; [intuition|]. destruct H as [H|H]; auto. apply IH in H. tauto. Qed.
Lemma set_snd_NoDup : forall (d : list (Z * Z)) k v, NoDup (map snd d) -> ~ In v (map snd d) -> NoDup (map snd (dict_set Z.eqb d k v)).
Proof.
  induction d as [|[a b] d IH]; intros k v N H; cbn in *; [repeat constructor; auto|]. inversion N as [|? ? N1 N2]; subst. destruct (a =? k); cbn.
  - constructor; auto.
  - constructor; [|apply IH; auto]. intros C. apply set_snd_In in C. destruct C as [->|C]; auto.
Qed.
Lemma tsafe_add : forall v, tsafe (t_add v).
Proof.
  intros v s K. unfold t_add. destruct (t_key s v) as [k|]; auto. set (s1 := match t_objs s k with Some cur => if cur =? v then s else x_odir (upd (t_odir s) cur None) s | None => s end).
  assert (K1 : tkeys_ok s1) by (unfold s1; destruct (t_objs s k); [destruct (_ =? _)|]; exact K). cbn zeta.
  set (s2 := match dict_get Z.eqb (t_refs s1) k with None => x_next (t_next s1 + 1) (x_refs (dict_set Z.eqb (t_refs s1) k (t_next s1)) s1) | Some _ => s1 end).
  assert (K2 : tkeys_ok s2).
  { unfold s2. destruct (dict_get Z.eqb (t_refs s1) k); auto. destruct K1 as (A & B & C). rewrite Forall_forall in B. unfold tkeys_ok. cbn [t_refs t_next x_next x_refs]. split; [|split; [|lia]].
    - apply set_snd_NoDup; auto. intros X. apply B in X. lia.
    - rewrite Forall_forall. intros x X. apply set_snd_In in X. destruct X as [->|X]; [lia|]. apply B in X. lia. }
  destruct (t_att _); [|exact K2]. apply tsafe_place. exact K2.
Qed.
Lemma tsafe_swap : forall old new, tsafe (t_swap old new).
Proof.
  intros old new. apply tsafe_bind; [apply tsafe_get|]. intros [o|]; [|apply tsafe_raise]. intros s K. destruct (dict_get Z.eqb (t_refs s) old) as [c|] eqn:G; auto.
  destruct K as (A & B & C). unfold tkeys_ok. cbn [fst t_refs t_next x_key x_objs x_refs].
  assert (Hc : In (old, c) (t_refs s)). { clear -G. induction (t_refs s) as [|[a b] r IH]; [discriminate|]. cbn in *. destruct (a =? old) eqn:E; [left; assert (a = old) by lia; congruence|right; auto]. }
  split; [|split; auto].
  - apply set_snd_NoDup; [apply del_snd_NoDup; auto|]. intros X. clear -A Hc X. induction (t_refs s) as [|[a b] r IH]; [destruct Hc|]. cbn in *. inversion A as [|? ? A1 A2]; subst. destruct Hc as [Hc|Hc].
    + injection Hc as -> ->. unfold dict_del in X. cbn in X. rewrite Z.eqb_refl in X. cbn in X. apply A1. eapply del_snd; exact X.
    + unfold dict_del in *. cbn in X. destruct (a =? old); cbn in X; [auto|]. destruct X as [X|X]; auto. subst. apply A1. apply in_map_iff. exists (old, c). auto.
  - rewrite Forall_forall in *. intros x X. apply B. apply set_snd_In in X. destruct X as [->|X]; [apply in_map_iff; exists (old, c); auto|]. eapply del_snd; eauto.
Qed.

Lemma tsafe_op : forall o, tsafe (srun_op okclass okroot swappable o).
Proof.
  assert (L : forall A (f : A -> sout) m, tsafe m -> tsafe (tlift f m)) by (intros A f m H; apply tsafe_bind; auto; intros a; apply tsafe_ret).
  assert (Ext : forall vs, tsafe (t_extend okclass okroot vs)).
  { intros vs. unfold t_extend. apply tsafe_bind.
    - induction vs as [|v vs IH]; cbn [t_check]; [apply tsafe_ret|]. intros s K. destruct (negb _); auto. destruct (negb _); auto. destruct (t_odir s v); auto.
    - intros _. apply tsafe_bind; [|intros _ s K; exact K]. induction vs as [|v vs IH]; cbn [t_adds]; [apply tsafe_ret|]. apply tsafe_bind; [apply tsafe_add|auto]. }
  assert (Clr : tsafe t_clear).
  { unfold t_clear. apply tsafe_bind; [apply tsafe_each; intros; apply tsafe_detach|]. intros _ s K. split; [constructor|]. split; [constructor|]. cbn. lia. }
  intros [k|k|k| | |vs|k| |vs|old new|o k|keep|t| |x d]; cbn [srun_op].
  - apply L, tsafe_get.
  - apply L. apply tsafe_bind; [apply tsafe_get|]. intros [x|]; [apply tsafe_ret|apply tsafe_raise].
  - intros s K. exact K.
  - intros s K. exact K.
  - apply L, tsafe_items.
  - apply L, Ext.
  - apply L. apply tsafe_bind; [apply tsafe_get|]. intros [o|]; [|apply tsafe_raise]. apply tsafe_bind; [|intros _; apply tsafe_bind; [apply tsafe_detach|intros; apply tsafe_ret]].
    intros s (A & B & C). unfold tkeys_ok. cbn [fst tmod t_refs t_next x_objs x_refs]. split; [apply del_snd_NoDup; auto|]. split; auto. rewrite Forall_forall in *. intros y Y. apply B. eapply del_snd; eauto.
  - apply L, Clr.
  - apply L. apply tsafe_bind; auto.
  - apply L, tsafe_swap.
  - apply L. intros s K. unfold t_setkey. destruct (t_odir s o); [|exact K]. destruct (t_key s o); [|exact K]. destruct swappable; [|exact K]. revert s K. apply tsafe_bind; [apply tsafe_swap|]. intros _ s K. exact K.
  - intros s K. cbn. destruct (t_att s); exact K.
  - apply L. intros s K. unfold q_attach. destruct (t_att s); auto. destruct (t_reg s); [|exact K]. unfold t_attach. destruct (negb _); [exact K|]. apply tsafe_loop. exact K.
  - apply L. intros s K. unfold q_detach. destruct (negb _); [exact K|]. revert s K. apply tsafe_bind; [apply tsafe_items|]. intros l. apply tsafe_bind.
    + induction (map snd l) as [|y r IH]; cbn [t_detach_all]; [apply tsafe_ret|]. apply tsafe_bind; [apply tsafe_detach|auto].
    + intros _. apply tsafe_bind; [apply tsafe_items|]. intros l2 s K. exact K.
  - intros s K. exact K.
Qed.
End Keys.

(** Whatever is done to the set, with any arguments and also when operations raise, no two entries share a
    storage name, even compared in upper case; the local keys stay below next_free_key. *)
Theorem C33_locals : forall okclass okroot swappable ops s up name i j ki kj a b, ascii_upper up ->
  NoDup (map snd (t_refs s)) -> Forall (fun c => 0 <= c < t_next s) (map snd (t_refs s)) -> 0 <= t_next s ->
  let s' := fst (srun okclass okroot swappable ops s) in
  znth (t_refs s') i = Some (ki, a) -> znth (t_refs s') j = Some (kj, b) -> i <> j ->
  flat_map up (element_storage name a) <> flat_map up (element_storage name b) /\ 0 <= a < t_next s'.
Proof.
  intros okclass okroot swappable ops s up name i j ki kj a b UP H1 H2 H3. assert (K : tkeys_ok s) by (split; auto). clear H1 H2 H3.
  assert (K' : tkeys_ok (fst (srun okclass okroot swappable ops s))).
  { revert s K. induction ops as [|o ops IH]; intros s K; auto. cbn [srun]. pose proof (tsafe_op okclass okroot swappable o s K) as K1. destruct (srun_op okclass okroot swappable o s) as [s1 x]. cbn [fst] in K1. specialize (IH s1 K1). destruct (srun okclass okroot swappable ops s1). exact IH. }
  intros s' Ha Hb Hne. fold s' in K'. destruct K' as (K1 & K2 & K3). rewrite Forall_forall in K2.
  assert (M : forall x y c, znth (t_refs s') x = Some (y, c) -> znth (map snd (t_refs s')) x = Some c).
  { intros x y c. unfold znth. unfold zlen. rewrite map_length. destruct (_ && _); [|discriminate]. rewrite nth_error_map. intros ->. auto. }
  apply M in Ha. apply M in Hb. pose proof (K2 a (znth_In _ _ _ _ Ha)) as Ba. pose proof (K2 b (znth_In _ _ _ _ Hb)) as Bb. split; auto.
  intros E. unfold element_storage in E. rewrite !flat_map_app in E. apply app_inv_head in E. apply app_inv_head in E. apply app_inv_tail in E.
  rewrite !(up_hex up UP) in E by (apply hex_str_lower; lia). apply hexu_inj in E; try lia. subst b. apply Hne. eapply znth_inj; eauto.
Qed.
Example C33_locals_case : t_refs (fst (srun yes yes true [SExtend [1; 2; 3]; SPop 20; SExtend [4]; SSwap 10 40; SExtend [5]] (sfresh false empty_dir no_dirs keys))) = [(30, 2); (40, 0); (50, 4)].
Proof. reflexivity. Qed.

(** ** C34 *)

(** After any history of the uses covered, on a new set (part of the file or not): changing the key of one of its objects to
    one no other object of the set has makes the object available under the new key and absent under the
    old one; all the others are found as before. *)
Theorem C34_swap_partial : forall okclass okroot swappable ops att t odir key old new o,
  (forall o, match odir o with Some (Here _) => False | _ => True end) ->
  dall_allowed okclass okroot swappable ops (start att odir key) ->
  let s := fst (srun okclass okroot swappable ops (sfresh att t odir key)) in
  snd (t_get old s) = Ok (Some o) -> (new = old \/ snd (t_get new s) = Ok None) ->
  let s' := fst (t_swap old new s) in
  snd (t_swap old new s) = Ok tt /\ t_key s' o = Some new /\ snd (t_get new s') = Ok (Some o) /\ (old <> new -> snd (t_get old s') = Ok None) /\
  (forall k, k <> old -> k <> new -> snd (t_get k s') = snd (t_get k s)).
Proof.
  intros okclass okroot swappable ops att t odir key old new o Ho A s G F. destruct (start_rel att t odir key Ho) as [R0 W0]. destruct (srun_rel okclass okroot swappable ops _ _ R0 W0 A) as [_ R]. fold s in R. set (l := fst (dspec_run okclass okroot swappable ops (start att odir key))) in *. clearbody l s.
  assert (Get : forall s l k, srel s l -> snd (t_get k s) = Ok (dict_get Z.eqb (d_map l) k)). { intros s0 l0 k R1. destruct (get_srel s0 l0 k R1) as (? & -> & _). auto. }
  rewrite (Get s l old R) in G. injection G as G. pose proof G as G'. apply get_In in G'; [|apply R].
  assert (Fk : free_key l old new). { destruct F as [->|F]; [left; auto|right]. rewrite (Get s l new R) in F. injection F as F. apply get_none. auto. }
  destruct (swap_srel s l old new o R G' Fk) as (s' & E & R' & _). rewrite E. cbn [fst snd]. split; auto. pose proof (q_nodup _ _ R') as N.
  assert (Fd : ~ In new (map fst (without (d_map l) old))). { cbn in N. rewrite map_app in N. apply NoDup_remove_2 in N. rewrite app_nil_r in N. exact N. }
  split; [rewrite (q_key _ _ R'); cbn; apply upd_same|]. split; [|split].
  - rewrite (Get s' _ new R'). f_equal. apply get_In; auto. cbn. apply in_or_app. right. left. auto.
  - intros X. rewrite (Get s' _ old R'). f_equal. apply get_none. cbn. rewrite map_app. intros C. apply in_app_iff in C. destruct C as [C|[C|[]]]; [apply (del_none (d_map l) old); exact C|cbn in C; congruence].
  - intros k K1 K2. rewrite (Get s' _ k R'), (Get s l k R). f_equal. destruct (dict_get Z.eqb (d_map l) k) as [x|] eqn:E1.
    + apply get_In in E1; [|apply R]. apply get_In; auto. cbn. apply in_or_app. left. apply del_In. auto.
    + apply get_none. apply get_none in E1. cbn. rewrite map_app. intros C. apply in_app_iff in C. destruct C as [C|[C|[]]]; [|cbn in C; congruence]. apply E1. apply key_In in C. destruct C as (x & C). apply del_In in C. eapply In_key. apply C.
Qed.
Example C34_case : let ops := [SExtend [1; 2; 3]; SPop 20; SGc yes] in let s := fst (srun yes yes true ops (sfresh true empty_dir no_dirs keys)) in
  dall_allowed yes yes true ops (start true no_dirs keys) /\ snd (t_get 10 s) = Ok (Some 1) /\ snd (t_get 70 s) = Ok None /\ snd (t_get 70 (fst (t_swap 10 70 s))) = Ok (Some 1).
Proof.
  split; [|split; [|split]]; vm_compute; auto.
  repeat match goal with |- _ /\ _ => split | H : In _ _ |- _ => destruct H | H : _ \/ _ |- _ => destruct H | H : False |- _ => destruct H | |- forall _, _ => intros | H : _ = ?x |- _ => subst x | |- True => exact I | |- _ => discriminate | |- _ => reflexivity end.
Qed.

Lemma assign_srel : forall s l o old new, srel s l -> d_att l = true -> d_dead l o = false -> In (old, o) (d_map l) -> ~ In new (map fst (d_map l)) ->
  let s' := fst (t_setkey true o new s) in
  snd (t_setkey true o new s) = Ok tt /\ t_key s' o = Some new /\ snd (t_get new s') = Ok (Some o) /\ snd (t_get old s') = Ok None /\
  (forall k, k <> old -> k <> new -> snd (t_get k s') = snd (t_get k s)).
Proof.
  intros s l o old new R A D H F. cbn zeta. pose proof (odir_attached s l o R D) as O. unfold attached_obj in O. replace (member l o) with true in O by (symmetry; apply member_In; eauto). rewrite A, orb_true_r in O. destruct (t_odir s o) eqn:Eo; [|discriminate].
  destruct (swap_srel s l old new o R H (or_intror F)) as (s' & E & R' & _).
  assert (E0 : t_setkey true o new s = (x_key (upd (t_key s') o (Some new)) s', Ok tt)) by (unfold t_setkey; rewrite Eo, (q_key _ _ R), (q_kin _ _ R _ _ H); unfold tbind; rewrite E; auto).
  rewrite E0. cbn [fst snd]. split; auto. split; [cbn; apply upd_same|].
  assert (Get : forall s l k, srel s l -> snd (t_get k s) = Ok (dict_get Z.eqb (d_map l) k)). { intros s0 l0 k R1. destruct (get_srel s0 l0 k R1) as (? & -> & _). auto. }
  assert (R2 : srel (x_key (upd (t_key s') o (Some new)) s') (dswap l old new o)). { constructor; cbn [t_att t_reg t_refs t_next t_objs t_store t_odir t_key x_key]; try apply R'. intros x. destruct (Z.eq_dec x o) as [->|]; [cbn; rewrite !upd_same; auto|rewrite upd_other by auto; apply R']. }
  pose proof (q_nodup _ _ R') as N. assert (Ne : old <> new) by (intros ->; apply F; eapply In_key; eauto).
  split; [|split].
  - rewrite (Get _ _ new R2). f_equal. apply get_In; auto. cbn. apply in_or_app. right. left. auto.
  - rewrite (Get _ _ old R2). f_equal. apply get_none. cbn. rewrite map_app. intros C. apply in_app_iff in C. destruct C as [C|[C|[]]]; [apply (del_none (d_map l) old); exact C|cbn in C; congruence].
  - intros k K1 K2. rewrite (Get _ _ k R2), (Get s l k R). f_equal. destruct (dict_get Z.eqb (d_map l) k) as [x|] eqn:E1.
    + apply get_In in E1; [|apply R]. apply get_In; auto. cbn. apply in_or_app. left. apply del_In. auto.
    + apply get_none. apply get_none in E1. cbn. rewrite map_app. intros C. apply in_app_iff in C. destruct C as [C|[C|[]]]; [|cbn in C; congruence]. apply E1. apply key_In in C. destruct C as (x & C). apply del_In in C. eapply In_key. apply C.
Qed.

(** Assigning the id of an object got from a set that is part of the file: same outcome. *)
Theorem C34_assign_partial : forall okclass okroot ops att t odir key old new o s,
  (forall o, match odir o with Some (Here _) => False | _ => True end) ->
  dall_allowed okclass okroot true ops (start att odir key) ->
  t_get old (fst (srun okclass okroot true ops (sfresh att t odir key))) = (s, Ok (Some o)) ->
  t_att s = true -> snd (t_get new s) = Ok None ->
  let s' := fst (t_setkey true o new s) in
  snd (t_setkey true o new s) = Ok tt /\ t_key s' o = Some new /\ snd (t_get new s') = Ok (Some o) /\ snd (t_get old s') = Ok None /\
  (forall k, k <> old -> k <> new -> snd (t_get k s') = snd (t_get k s)).
Proof.
  intros okclass okroot ops att t odir key old new o s Ho A G At F. destruct (start_rel att t odir key Ho) as [R0 W0]. destruct (srun_rel okclass okroot true ops _ _ R0 W0 A) as [_ R].
  set (l := fst (dspec_run okclass okroot true ops (start att odir key))) in *. destruct (get_srel _ l old R) as (s1 & E & R1 & _ & _). rewrite G in E. injection E as <- E. unfold alive_get in R1. rewrite <- E in R1.
  symmetry in E. apply get_In in E; [|apply R]. apply (assign_srel s (with_dead l (revive (d_dead l) [o]))); auto.
  - rewrite <- (q_att _ _ R1). auto.
  - cbn. unfold revive. cbn. rewrite Z.eqb_refl. auto.
  - destruct (get_srel _ _ new R1) as (s2 & E2 & _). rewrite E2 in F. cbn [snd] in F. injection F as F. cbn in *. apply get_none. auto.
Qed.
Example C34_assign_case : let ops := [SExtend [1; 2; 3]; SAttach empty_dir; SGc (fun _ => false)] in let s := fst (t_get 10 (fst (srun yes yes true ops (sfresh false empty_dir no_dirs keys)))) in
  t_att s = true /\ snd (t_get 70 s) = Ok None /\ snd (t_get 70 (fst (t_setkey true 1 70 s))) = Ok (Some 1) /\ snd (t_get 20 (fst (t_setkey true 1 70 s))) = Ok (Some 2).
Proof. repeat split. Qed.

(** With an id another object of the set has, that other object is lost. *)
Theorem C34_collision_refuted : snd (srun yes yes true [SExtend [1; 2]; SKey 1 20; SGet 20; SItems] (sfresh true empty_dir no_dirs keys)) =
  [Ok QUnit; Ok QUnit; Ok (QObj (Some 1)); Ok (QItems [(20, 1)])].
Proof. reflexivity. Qed.

(** While the set's owner is not part of the file, changing the id of a member is not noticed by the set:
    the object stays under the old id. *)
Theorem C34_unattached_refuted : snd (srun yes yes true [SExtend [1]; SKey 1 70; SGet 70; SGet 10; SAttach empty_dir; SItems] (sfresh false empty_dir no_dirs keys)) =
  [Ok QUnit; Ok QUnit; Ok (QObj None); Ok (QObj (Some 1)); Ok QUnit; Ok (QItems [(10, 1)])].
Proof. reflexivity. Qed.

(** An object without unique id in the middle of an extend: the objects before it are in the set, but the set
    is not made a property of its owner, so they are not saved. *)
Theorem C33_nokey_extend : let r := srun yes yes true [SExtend [1; 0; 2]; SItems] (sfresh true empty_dir no_dirs keys) in
  snd r = [Err PropertyError; Ok (QItems [(10, 1)])] /\ t_reg (fst r) = false.
Proof. split; reflexivity. Qed.

Print Assumptions C33_map. Print Assumptions C33_loaded. Print Assumptions C33_locals. Print Assumptions C33_nokey_extend.
Print Assumptions C34_swap_partial. Print Assumptions C34_assign_partial. Print Assumptions C34_collision_refuted. Print Assumptions C34_unattached_refuted.
