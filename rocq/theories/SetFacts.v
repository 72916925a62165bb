(** Strong reference sets: dict facts and the relation to a dict of objects. *)
From Verif Require Import Base BaseFacts TypesModel TypesFacts VecModel VecFacts SetModel.
From Coq Require Import ZArith List Bool Lia.
Import ListNotations.
Open Scope Z_scope.
Open Scope t_scope.

Lemma zeqb_eq : forall a b : Z, (a =? b) = true <-> a = b. Proof. intros. apply Z.eqb_eq. Qed.

Section D.
Context {V : Type}.
Implicit Type d : list (Z * V).
Lemma get_In : forall d k v, NoDup (map fst d) -> (dict_get Z.eqb d k = Some v <-> In (k, v) d).
Proof.
  intros d k v N. split; [|apply dict_get_in; [apply zeqb_eq|auto]]. clear N. induction d as [|[k' v'] d IH]; intros H; [discriminate|]. cbn in *. destruct (k' =? k) eqn:E; [left; assert (k' = k) by lia; congruence|right; auto].
Qed.
Lemma get_none : forall d k, dict_get Z.eqb d k = None <-> ~ In k (map fst d).
Proof.
  intros d k. split; [|apply dict_get_none, zeqb_eq]. induction d as [|[k' v'] d IH]; intros H; auto. cbn in *. destruct (k' =? k) eqn:E; [discriminate|]. intros [|]; [lia|]. apply IH; auto.
Qed.
Lemma In_key : forall d k v, In (k, v) d -> In k (map fst d).
Proof. intros. apply in_map_iff. exists (k, v). auto. Qed.
Lemma key_In : forall d k, In k (map fst d) -> exists v, In (k, v) d.
Proof. intros d k H. apply in_map_iff in H. destruct H as ([a b] & <- & H). eauto. Qed.
Lemma In_fun : forall d k v w, NoDup (map fst d) -> In (k, v) d -> In (k, w) d -> v = w.
Proof. intros d k v w N H1 H2. apply (get_In _ _ _ N) in H1. apply (get_In _ _ _ N) in H2. congruence. Qed.
Lemma set_In : forall d k v x w, NoDup (map fst d) -> (In (x, w) (dict_set Z.eqb d k v) <-> (x = k /\ w = v) \/ (x <> k /\ In (x, w) d)).
Proof.
  induction d as [|[k' v'] d IH]; intros k v x w N; cbn.
  - intuition congruence.
  - inversion N as [|? ? N1 N2]; subst. destruct (k' =? k) eqn:E.
    + assert (k' = k) by lia. subst. cbn. split.
      * intros [X|X]; [left; split; congruence|]. right. split; auto. intros ->. apply N1. eapply In_key; eauto.
      * intros [[-> ->]|[X [Y|Y]]]; auto. congruence.
    + cbn. rewrite IH by auto. assert (k' <> k) by lia. intuition congruence.
Qed.
Lemma set_fst : forall d k v, map fst (dict_set Z.eqb d k v) = if in_dec Z.eq_dec k (map fst d) then map fst d else map fst d ++ [k].
Proof.
  intros d k v. destruct (in_dec _ _ _) as [I|I].
  - induction d as [|[k' v'] d IH]; [destruct I|]. cbn in *. destruct (k' =? k) eqn:E; cbn; [assert (k' = k) by lia; congruence|]. f_equal. apply IH. destruct I; [lia|auto].
  - rewrite dict_set_new by (auto; apply zeqb_eq). rewrite map_app. auto.
Qed.
Lemma set_NoDup : forall d k v, NoDup (map fst d) -> NoDup (map fst (dict_set Z.eqb d k v)).
Proof. intros. apply dict_set_keys; auto. apply zeqb_eq. Qed.
Lemma set_same : forall d k v, In (k, v) d -> NoDup (map fst d) -> dict_set Z.eqb d k v = d.
Proof.
  induction d as [|[k' v'] d IH]; intros k v I N; [destruct I|]. inversion N as [|? ? N1 N2]; subst. cbn. destruct (k' =? k) eqn:E.
  - assert (k' = k) by lia. subst. destruct I as [X|X]; [congruence|]. exfalso. apply N1. eapply In_key; eauto.
  - f_equal. apply IH; auto. destruct I as [X|X]; auto. injection X as -> ->. lia.
Qed.
Lemma del_In : forall d k x w, In (x, w) (dict_del d k) <-> x <> k /\ In (x, w) d.
Proof. intros. unfold dict_del. rewrite filter_In. cbn. split; intros [A B]; split; auto; destruct (x =? k) eqn:E; cbn in *; auto; try lia; try discriminate. Qed.
Lemma del_fst : forall d k, map fst (dict_del d k) = filter (fun x => negb (x =? k)) (map fst d).
Proof. induction d as [|[a b] d IH]; intros k; auto. unfold dict_del in *. cbn. destruct (a =? k); cbn; [apply IH|f_equal; apply IH]. Qed.
Lemma del_NoDup : forall d k, NoDup (map fst d) -> NoDup (map fst (dict_del d k)).
Proof. intros. rewrite del_fst. apply NoDup_filter. auto. Qed.
Lemma del_none : forall d k, ~ In k (map fst (dict_del d k)).
Proof. intros d k H. apply key_In in H. destruct H as (v & H). apply del_In in H. tauto. Qed.
End D.

Lemma del_snd : forall (d : list (Z * Z)) k, incl (map snd (dict_del d k)) (map snd d).
Proof. intros d k x X. apply in_map_iff in X. destruct X as ([a b] & <- & X). apply del_In in X. apply in_map_iff. exists (a, b). tauto. Qed.
Lemma del_snd_NoDup : forall (d : list (Z * Z)) k, NoDup (map snd d) -> NoDup (map snd (dict_del d k)).
Proof.
  induction d as [|[a b] d IH]; intros k N; [constructor|]. inversion N as [|? ? N1 N2]; subst. unfold dict_del in *. cbn. destruct (a =? k); cbn; auto. constructor; auto. intros X. apply N1. eapply (del_snd d k). exact X.
Qed.

(** ** The relation *)

Record dic := Dic { d_att : bool; d_reg : bool; d_map : list (Z * Z); d_busy : Z -> bool; d_key : Z -> option Z; d_dead : Z -> bool }.

Definition tsettled (s : sset) (c o : Z) : Prop := t_store s c = Some (Some o) /\ t_odir s o = Some (Here c).

Record srel (s : sset) (l : dic) : Prop := {
  q_att : t_att s = d_att l;
  q_keys : map fst (t_refs s) = map fst (d_map l);
  q_nodup : NoDup (map fst (d_map l));
  q_locals : NoDup (map snd (t_refs s));
  q_range : Forall (fun c => 0 <= c < t_next s) (map snd (t_refs s));
  q_next : 0 <= t_next s;
  q_coh : forall k o, t_objs s k = Some o -> In (k, o) (d_map l);
  q_key : forall o, t_key s o = d_key l o;
  q_kin : forall k o, In (k, o) (d_map l) -> d_key l o = Some k;
  q_busy : forall k o, In (k, o) (d_map l) -> d_busy l o = false;
  q_dead : forall k o, In (k, o) (d_map l) -> (d_dead l o = true <-> t_objs s k = None);
  q_out : forall o, (forall k, ~ In (k, o) (d_map l)) -> d_dead l o = false ->
    match t_odir s o with None => d_busy l o = false | Some (There _) => d_busy l o = true | Some (Here _) => False end;
  q_in : if d_att l then forall k c o, In (k, c) (t_refs s) -> In (k, o) (d_map l) -> tsettled s c o
         else forall k o, In (k, o) (d_map l) -> t_objs s k = Some o /\ t_odir s o = None }.

Definition owned (s : sset) (l : dic) : Prop := t_reg s = d_reg l /\ (d_map l <> [] -> d_reg l = true).

Lemma q_refs_nodup : forall s l, srel s l -> NoDup (map fst (t_refs s)).
Proof. intros s l R. rewrite (q_keys _ _ R). apply R. Qed.
Lemma local_of : forall s l k o, srel s l -> In (k, o) (d_map l) -> exists c, In (k, c) (t_refs s) /\ dict_get Z.eqb (t_refs s) k = Some c.
Proof.
  intros s l k o R H. destruct (key_In (t_refs s) k) as (c & Hc). { rewrite (q_keys _ _ R). eapply In_key; eauto. }
  exists c. split; auto. apply get_In; auto. apply (q_refs_nodup _ _ R).
Qed.
Lemma obj_fun : forall s l k k' o, srel s l -> In (k, o) (d_map l) -> In (k', o) (d_map l) -> k = k'.
Proof. intros s l k k' o R A B. apply (q_kin _ _ R) in A. apply (q_kin _ _ R) in B. congruence. Qed.
Lemma local_fun : forall s l k k' c, srel s l -> In (k, c) (t_refs s) -> In (k', c) (t_refs s) -> k = k'.
Proof.
  intros s l k k' c R A B. pose proof (q_locals _ _ R) as N. clear R. induction (t_refs s) as [|[a b] r IH]; [destruct A|]. cbn in *. inversion N as [|? ? N1 N2]; subst.
  destruct A as [A|A], B as [B|B]; try congruence; auto.
  - exfalso. apply N1. apply in_map_iff. exists (k', c). injection A as _ ->. auto.
  - exfalso. apply N1. apply in_map_iff. exists (k, c). injection B as _ ->. auto.
Qed.

Definition revive (dead : Z -> bool) (os : list Z) : Z -> bool := fun o => if existsb (Z.eqb o) os then false else dead o.
Definition with_dead (l : dic) d := Dic (d_att l) (d_reg l) (d_map l) (d_busy l) (d_key l) d.
Definition with_map (l : dic) m := Dic (d_att l) (d_reg l) m (d_busy l) (d_key l) (d_dead l).

Lemma existsb_eqb : forall o l, existsb (Z.eqb o) l = true <-> In o l.
Proof. intros o l. rewrite existsb_exists. split; [intros (x & Hx & E); replace o with x by lia; auto|intros H; exists o; split; auto; apply Z.eqb_refl]. Qed.

Lemma srel_dead_ext : forall s l d, (forall o, d o = d_dead l o) -> srel s l -> srel s (with_dead l d).
Proof.
  intros s l d E R. constructor; cbn [d_att d_reg d_map d_busy d_key d_dead with_dead]; try apply R.
  - intros k o H. rewrite E. apply (q_dead _ _ R); auto.
  - intros o H. rewrite E. apply (q_out _ _ R); auto.
Qed.

Lemma read_rel : forall s l k o, srel s l -> In (k, o) (d_map l) -> exists s', t_read k s = (s', Ok o) /\ srel s' (with_dead l (revive (d_dead l) [o])) /\ t_reg s' = t_reg s /\ t_objs s' k = Some o /\
  (forall j, j <> k -> t_objs s' j = t_objs s j).
Proof.
  intros s l k o R H. unfold t_read. destruct (t_objs s k) as [o'|] eqn:E.
  - assert (o' = o) by (apply (q_coh _ _ R) in E; eapply In_fun; eauto; apply R). subst. exists s. split; auto. split; [|split; auto].
    apply srel_dead_ext; auto. intros x. unfold revive. cbn. rewrite orb_false_r. destruct (x =? o) eqn:Ex; auto. assert (x = o) by lia. subst. destruct (d_dead l o) eqn:D; auto. apply (q_dead _ _ R _ _ H) in D. congruence.
  - destruct (local_of s l k o R H) as (c & Hc & Gc). rewrite Gc. rewrite (q_att _ _ R). pose proof (q_in _ _ R) as I. destruct (d_att l) eqn:A; cbn [negb].
    2:{ destruct (I k o H). congruence. }
    destruct (I k c o Hc H) as [S1 S2]. rewrite S1. eexists. split; [reflexivity|]. split; [|split; [auto|split; [cbn; apply upd_same|intros j Hj; cbn; apply upd_other; auto]]].
    constructor; cbn [d_att d_reg d_map d_busy d_key d_dead with_dead t_att t_reg t_refs t_next t_objs t_store t_odir t_key x_objs]; try apply R.
    + intros k' o' X. destruct (Z.eq_dec k' k) as [->|]; [rewrite upd_same in X; congruence|rewrite upd_other in X by auto; apply (q_coh _ _ R); auto].
    + intros k' o' X. unfold revive. cbn. rewrite orb_false_r. destruct (o' =? o) eqn:Eo.
      * assert (o' = o) by lia. subst. assert (k' = k) by (eapply obj_fun; eauto). subst. rewrite upd_same. split; discriminate.
      * rewrite upd_other; [apply (q_dead _ _ R); auto|]. intros ->. assert (o' = o) by (eapply In_fun; eauto; apply R). lia.
    + intros x X D. apply (q_out _ _ R); auto. unfold revive in D. cbn in D. rewrite orb_false_r in D. destruct (x =? o) eqn:Ex; auto. assert (x = o) by lia. subst. exfalso. eapply X; eauto.
    + rewrite A. intros k' c' o' X Y. apply (I k' c' o'); auto.
Qed.

Lemma contains_rel : forall s l k, srel s l -> dict_get Z.eqb (t_refs s) k = None <-> dict_get Z.eqb (d_map l) k = None.
Proof. intros s l k R. rewrite !get_none, (q_keys _ _ R). tauto. Qed.

Definition alive_get (l : dic) (k : Z) : dic := match dict_get Z.eqb (d_map l) k with Some o => with_dead l (revive (d_dead l) [o]) | None => l end.

Lemma get_srel : forall s l k, srel s l -> exists s', t_get k s = (s', Ok (dict_get Z.eqb (d_map l) k)) /\ srel s' (alive_get l k) /\ t_reg s' = t_reg s /\
  (forall o, dict_get Z.eqb (d_map l) k = Some o -> t_objs s' k = Some o).
Proof.
  intros s l k R. unfold t_get, tbind at 1, t_contains, alive_get. pose proof (contains_rel s l k R) as C. destruct (dict_get Z.eqb (d_map l) k) as [o|] eqn:E.
  - destruct (dict_get Z.eqb (t_refs s) k) eqn:G. 2:{ exfalso. destruct C as [C _]. specialize (C eq_refl). discriminate. }
    apply get_In in E; [|apply R]. destruct (read_rel s l k o R E) as (s' & Er & R' & Hr & Ho & _). unfold tbind. rewrite Er. exists s'. split; [reflexivity|]. split; auto. split; auto. intros x X. congruence.
  - rewrite (proj2 C) by auto. exists s. split; [reflexivity|]. split; auto. split; auto. discriminate.
Qed.

(** the rule for "for key, obj in self.items()" *)
Lemma t_for_rule : forall (d : list (Z * Z)) (I : list (Z * Z) -> sset -> Prop) body,
  (forall a k o b s, d = a ++ (k, o) :: b -> I a s -> exists s1 s2, t_read k s = (s1, Ok o) /\ body k o s1 = (s2, Ok tt) /\ I (a ++ [(k, o)]) s2) ->
  forall b a s, d = a ++ b -> I a s -> exists s', t_for (map fst b) body s = (s', Ok b) /\ I d s'.
Proof.
  intros d I body Step. induction b as [|[k o] b IH]; intros a s Ed Ia.
  - exists s. rewrite app_nil_r in Ed. subst. split; auto.
  - destruct (Step a k o b s Ed Ia) as (s1 & s2 & E1 & E2 & I2). cbn [map fst t_for]. unfold tbind at 1. rewrite E1. unfold tbind at 1. rewrite E2.
    destruct (IH (a ++ [(k, o)]) s2) as (s' & E & I'); [rewrite <- app_assoc; auto|auto|]. unfold tbind. rewrite E. exists s'. split; auto.
Qed.

Lemma items_rel : forall s l, srel s l -> exists s', t_items s = (s', Ok (d_map l)) /\ srel s' (with_dead l (revive (d_dead l) (map snd (d_map l)))) /\ t_reg s' = t_reg s /\
  (forall k o, In (k, o) (d_map l) -> t_objs s' k = Some o).
Proof.
  intros s l R. unfold t_items, t_each. rewrite (q_keys _ _ R).
  destruct (t_for_rule (d_map l) (fun a s' => srel s' (with_dead l (revive (d_dead l) (map snd a))) /\ t_reg s' = t_reg s /\ forall k o, In (k, o) a -> t_objs s' k = Some o) (fun _ _ => tret tt)) with (b := d_map l) (a := @nil (Z * Z)) (s := s) as (s' & E & R' & Hr & A).
  - intros a k o b s1 Ed (R1 & Hr & A1). destruct (read_rel s1 (with_dead l (revive (d_dead l) (map snd a))) k o R1) as (s2 & E2 & R2 & Hr2 & Ho & Hj). { cbn. rewrite Ed. apply in_or_app. right. left. auto. }
    exists s2, s2. split; auto. split; [reflexivity|]. split; [|split; [congruence|]].
    + change (with_dead l (revive (d_dead l) (map snd (a ++ [(k, o)])))) with (with_dead (with_dead (with_dead l (revive (d_dead l) (map snd a))) (revive (revive (d_dead l) (map snd a)) [o])) (revive (d_dead l) (map snd (a ++ [(k, o)])))). apply srel_dead_ext; auto.
      intros x. cbn. unfold revive. rewrite map_app, existsb_app. cbn. destruct (existsb _ _); cbn; auto. destruct (x =? o); auto.
    + intros k' o' I'. apply in_app_iff in I'. destruct I' as [I'|[I'|[]]]; [|congruence]. rewrite Hj; auto. intros ->.
      pose proof (q_nodup _ _ R) as N. rewrite Ed, map_app in N. cbn in N. apply NoDup_remove_2 in N. apply N. apply in_or_app. left. eapply In_key; eauto.
  - auto.
  - split; [|split; auto; intros k o []]. apply srel_dead_ext; auto.
  - exists s'. split; auto.
Qed.

(** ** Adding one object *)
Lemma add_rel : forall s l v k, srel s l -> d_key l v = Some k -> d_dead l v = false -> d_busy l v = false ->
  exists s', t_add v s = (s', Ok tt) /\ srel s' (with_map l (dict_set Z.eqb (d_map l) k v)) /\ t_reg s' = t_reg s.
Proof.
  intros s l v k R Hk Hd Hb. unfold t_add. rewrite (q_key _ _ R), Hk. pose proof (q_in _ _ R) as I.
  destruct (in_dec Z.eq_dec k (map fst (d_map l))) as [Hin|Hin].
  - (* the key is present *)
    destruct (key_In _ _ Hin) as (cur & Hcur). destruct (local_of s l k cur R Hcur) as (c & Hc & Gc).
    destruct (Z.eq_dec cur v) as [->|Hne].
    + assert (Ho : t_objs s k = Some v). { destruct (t_objs s k) eqn:E. { apply (q_coh _ _ R) in E. f_equal. eapply In_fun; eauto. apply R. } apply (q_dead _ _ R _ _ Hcur) in E. congruence. }
      rewrite Ho, Z.eqb_refl. cbn zeta. rewrite Gc. rewrite set_same; auto; [|apply R].
      assert (R3 : srel (x_objs (upd (t_objs s) k (Some v)) s) (with_map l (d_map l))).
      { assert (E : forall j, upd (t_objs s) k (Some v) j = t_objs s j) by (intros j; destruct (Z.eq_dec j k) as [->|]; [rewrite upd_same; auto|rewrite upd_other; auto]).
        constructor; cbn [d_att d_reg d_map d_busy d_key d_dead with_map t_att t_reg t_refs t_next t_objs t_store t_odir t_key x_objs]; try apply R.
        - intros j o. rewrite E. apply (q_coh _ _ R).
        - intros j o. rewrite E. apply (q_dead _ _ R).
        - destruct (d_att l); [exact I|]. intros j o X. rewrite E. apply I; auto. }
      set (s3 := x_objs _ _) in *. destruct (t_att s3) eqn:A.
      * assert (Al : d_att l = true) by (rewrite <- A; symmetry; apply (q_att _ _ R)). rewrite Al in I. destruct (I k c v Hc Hcur) as [S1 S2].
        unfold t_place. change (t_refs s3) with (t_refs s). rewrite Gc. change (t_store s3) with (t_store s). rewrite S1. change (t_odir s3) with (t_odir s). rewrite S2. cbn [same_name]. rewrite Z.eqb_refl. exists s3. auto.
      * exists s3. auto.
    + assert (Hv : forall j, ~ In (j, v) (d_map l)). { intros j X. assert (j = k). { apply (q_kin _ _ R) in X. congruence. } subst. apply Hne. eapply In_fun; eauto. apply R. }
      assert (Od : t_odir s v = None). { pose proof (q_out _ _ R v Hv Hd) as X. destruct (t_odir s v) as [[|]|]; auto; [destruct X|congruence]. }
      set (s1 := match t_objs s k with Some cur0 => if cur0 =? v then s else x_odir (upd (t_odir s) cur0 None) s | None => s end).
      assert (Q : exists d, s1 = x_odir d s /\ (forall o, o <> cur -> d o = t_odir s o) /\ (t_objs s k = None \/ d cur = None)).
      { unfold s1. destruct (t_objs s k) as [cu|] eqn:E.
        - assert (cu = cur) by (apply (q_coh _ _ R) in E; eapply In_fun; eauto; apply R). subst cu. replace (cur =? v) with false by lia. eexists. split; [reflexivity|]. split; [intros; apply upd_other; auto|right; apply upd_same].
        - exists (t_odir s). split; [destruct s; auto|]. auto. }
      destruct Q as (d & -> & Qd & Qc). cbn zeta. change (t_refs (x_odir d s)) with (t_refs s). rewrite Gc. cbn [t_att x_objs x_odir].
      assert (Nv : v <> cur) by congruence.
      destruct (t_att s) eqn:A.
      * unfold t_place. cbn [t_refs x_objs x_odir]. rewrite Gc. cbn [t_store x_objs x_odir].
        assert (Al : d_att l = true) by (rewrite <- A; symmetry; apply (q_att _ _ R)). rewrite Al in I. destruct (I k c cur Hc Hcur) as [S1 S2]. rewrite S1. cbn [t_odir x_objs x_odir]. rewrite (Qd v Nv), Od. cbn [same_name].
        unfold t_obj_attach. cbn [t_odir x_objs x_odir]. rewrite (Qd v Nv), Od. eexists. split; [reflexivity|]. split; [|reflexivity].
        constructor; cbn [d_att d_reg d_map d_busy d_key d_dead with_map t_att t_reg t_refs t_next t_objs t_store t_odir t_key x_objs x_odir x_store]; try apply R.
        -- rewrite set_fst. destruct (in_dec _ _ _); [apply R|contradiction].
        -- apply set_NoDup, R.
        -- intros j o X. apply set_In; [apply R|]. destruct (Z.eq_dec j k) as [->|]; [rewrite upd_same in X; left; split; congruence|]. rewrite upd_other in X by auto. right. split; auto. apply (q_coh _ _ R); auto.
        -- intros j o X. apply set_In in X; [|apply R]. destruct X as [[-> ->]|[_ X]]; auto. apply (q_kin _ _ R); auto.
        -- intros j o X. apply set_In in X; [|apply R]. destruct X as [[-> ->]|[_ X]]; auto. eapply (q_busy _ _ R); eauto.
        -- intros j o X. apply set_In in X; [|apply R]. destruct X as [[-> ->]|[Nj X]]; [rewrite upd_same; split; congruence|]. rewrite upd_other by auto. apply (q_dead _ _ R); auto.
        -- intros o X D. destruct (Z.eq_dec o v) as [->|]. { exfalso. apply (X k). apply set_In; [apply R|]. auto. }
           rewrite upd_other by auto. destruct (Z.eq_dec o cur) as [->|].
           { destruct Qc as [Qc|Qc]. { exfalso. apply (q_dead _ _ R _ _ Hcur) in Qc. congruence. } rewrite Qc. eapply (q_busy _ _ R); eauto. }
           rewrite Qd by auto. apply (q_out _ _ R); auto. intros j Y. apply (X j). apply set_In; [apply R|]. right. split; auto. intros ->. apply n0. eapply In_fun; eauto. apply R.
        -- rewrite Al. intros j c' o Hc' X. apply set_In in X; [|apply R]. destruct X as [[-> ->]|[Nj X]].
           { assert (c' = c) by (eapply In_fun; eauto; apply (q_refs_nodup _ _ R)). subst. split; cbn; apply upd_same. }
           { destruct (I j c' o Hc' X) as [T1 T2]. assert (c' <> c) by (intros ->; apply Nj; eapply local_fun; eauto). assert (o <> v) by (intros ->; apply (Hv j); auto). assert (o <> cur) by (intros ->; apply Nj; eapply obj_fun; eauto).
             split; cbn; rewrite upd_other by auto; auto. rewrite Qd; auto. }
      * assert (Al : d_att l = false) by (rewrite <- A; symmetry; apply (q_att _ _ R)). rewrite Al in I. eexists. split; [reflexivity|]. split; [|reflexivity].
        constructor; cbn [d_att d_reg d_map d_busy d_key d_dead with_map t_att t_reg t_refs t_next t_objs t_store t_odir t_key x_objs x_odir x_store]; try apply R.
        -- rewrite set_fst. destruct (in_dec _ _ _); [apply R|contradiction].
        -- apply set_NoDup, R.
        -- intros j o X. apply set_In; [apply R|]. destruct (Z.eq_dec j k) as [->|]; [rewrite upd_same in X; left; split; congruence|]. rewrite upd_other in X by auto. right. split; auto. apply (q_coh _ _ R); auto.
        -- intros j o X. apply set_In in X; [|apply R]. destruct X as [[-> ->]|[_ X]]; auto. apply (q_kin _ _ R); auto.
        -- intros j o X. apply set_In in X; [|apply R]. destruct X as [[-> ->]|[_ X]]; auto. eapply (q_busy _ _ R); eauto.
        -- intros j o X. apply set_In in X; [|apply R]. destruct X as [[-> ->]|[Nj X]]; [rewrite upd_same; split; congruence|]. rewrite upd_other by auto. apply (q_dead _ _ R); auto.
        -- intros o X D. destruct (Z.eq_dec o v) as [->|]. { exfalso. apply (X k). apply set_In; [apply R|]. auto. }
           destruct (Z.eq_dec o cur) as [->|].
           { destruct Qc as [Qc|Qc]. { exfalso. apply (q_dead _ _ R _ _ Hcur) in Qc. congruence. } rewrite Qc. eapply (q_busy _ _ R); eauto. }
           rewrite Qd by auto. apply (q_out _ _ R); auto. intros j Y. apply (X j). apply set_In; [apply R|]. right. split; auto. intros ->. apply n0. eapply In_fun; eauto. apply R.
        -- rewrite Al. intros j o X. apply set_In in X; [|apply R]. destruct X as [[-> ->]|[Nj X]].
           { rewrite upd_same, Qd; auto. }
           { destruct (I j o X) as [T1 T2]. assert (o <> cur) by (intros ->; apply Nj; eapply obj_fun; eauto). rewrite upd_other, Qd by auto. auto. }
  - (* a new key *)
    assert (Ho : t_objs s k = None). { destruct (t_objs s k) eqn:E; auto. apply (q_coh _ _ R) in E. exfalso. apply Hin. eapply In_key; eauto. }
    assert (Gc : dict_get Z.eqb (t_refs s) k = None) by (apply get_none; rewrite (q_keys _ _ R); auto).
    assert (Hv : forall j, ~ In (j, v) (d_map l)). { intros j X. assert (j = k). { apply (q_kin _ _ R) in X. congruence. } subst. apply Hin. eapply In_key; eauto. }
    assert (Od : t_odir s v = None). { pose proof (q_out _ _ R v Hv Hd) as X. destruct (t_odir s v) as [[|]|]; auto; [destruct X|congruence]. }
    rewrite Ho. cbn zeta. rewrite Gc. set (r' := dict_set Z.eqb (t_refs s) k (t_next s)).
    assert (Er : r' = t_refs s ++ [(k, t_next s)]) by (unfold r'; apply dict_set_new; [apply zeqb_eq|apply get_none; auto]).
    assert (Ed : dict_set Z.eqb (d_map l) k v = d_map l ++ [(k, v)]) by (apply dict_set_new; [apply zeqb_eq|auto]).
    assert (Nr : NoDup (map fst r')) by (apply set_NoDup, (q_refs_nodup _ _ R)).
    assert (Gr : dict_get Z.eqb r' k = Some (t_next s)) by (apply get_In; auto; rewrite Er; apply in_or_app; right; left; auto).
    assert (Fr : forall x, In x (map snd (t_refs s)) -> x <> t_next s) by (intros x X ->; pose proof (q_range _ _ R) as F; rewrite Forall_forall in F; apply F in X; lia).
    assert (F1 : NoDup (map snd r')).
    { rewrite Er, map_app. apply NoDup_app_iff. split; [apply R|]. split; [repeat constructor; auto|]. intros x X [<-|[]]. apply (Fr _ X). auto. }
    assert (F2 : Forall (fun c => 0 <= c < t_next s + 1) (map snd r')).
    { pose proof (q_next _ _ R). rewrite Er, map_app. apply Forall_app. split; [eapply Forall_impl; [|apply (q_range _ _ R)]; cbn; intros; lia|]. repeat constructor; cbn; lia. }
    assert (Ek : map fst r' = map fst (dict_set Z.eqb (d_map l) k v)) by (rewrite Er, Ed, !map_app, (q_keys _ _ R); auto).
    assert (Nd : NoDup (map fst (dict_set Z.eqb (d_map l) k v))) by (apply set_NoDup, R).
    assert (Hcoh : forall j o, upd (t_objs s) k (Some v) j = Some o -> In (j, o) (dict_set Z.eqb (d_map l) k v)).
    { intros j o X. apply set_In; [apply R|]. destruct (Z.eq_dec j k) as [->|]; [rewrite upd_same in X; left; split; congruence|]. rewrite upd_other in X by auto. right. split; auto. apply (q_coh _ _ R); auto. }
    assert (Hkin : forall j o, In (j, o) (dict_set Z.eqb (d_map l) k v) -> d_key l o = Some j).
    { intros j o X. apply set_In in X; [|apply R]. destruct X as [[-> ->]|[_ X]]; auto. apply (q_kin _ _ R); auto. }
    assert (Hbz : forall j o, In (j, o) (dict_set Z.eqb (d_map l) k v) -> d_busy l o = false).
    { intros j o X. apply set_In in X; [|apply R]. destruct X as [[-> ->]|[_ X]]; auto. eapply (q_busy _ _ R); eauto. }
    assert (Hdd : forall j o, In (j, o) (dict_set Z.eqb (d_map l) k v) -> (d_dead l o = true <-> upd (t_objs s) k (Some v) j = None)).
    { intros j o X. apply set_In in X; [|apply R]. destruct X as [[-> ->]|[Nj X]]; [rewrite upd_same; split; congruence|]. rewrite upd_other by auto. apply (q_dead _ _ R); auto. }
    assert (Hout : forall o, (forall j, ~ In (j, o) (dict_set Z.eqb (d_map l) k v)) -> (forall j, ~ In (j, o) (d_map l))).
    { intros o X j Y. apply (X j). rewrite Ed. apply in_or_app. auto. }
    cbn [t_att x_objs x_next x_refs]. destruct (t_att s) eqn:A.
    + assert (Al : d_att l = true) by (rewrite <- A; symmetry; apply (q_att _ _ R)). rewrite Al in I. unfold t_place. cbn [t_refs x_objs x_next x_refs]. rewrite Gr. cbn [t_store x_objs x_next x_refs].
      set (s4 := match t_store s (t_next s) with Some _ => _ | None => _ end).
      assert (Q : exists t, s4 = x_store t (x_objs (upd (t_objs s) k (Some v)) (x_next (t_next s + 1) (x_refs r' s))) /\ forall x, x <> t_next s -> t x = t_store s x).
      { unfold s4. destruct (t_store s (t_next s)); [exists (t_store s); split; auto|]. eexists. split; [reflexivity|]. intros. apply upd_other. auto. }
      destruct Q as (t & -> & Qt). cbn [t_odir x_store x_objs x_next x_refs]. rewrite Od. cbn [same_name]. unfold t_obj_attach. cbn [t_odir x_store x_objs x_next x_refs]. rewrite Od. eexists. split; [reflexivity|]. split; [|reflexivity].
      constructor; cbn [d_att d_reg d_map d_busy d_key d_dead with_map t_att t_reg t_refs t_next t_objs t_store t_odir t_key x_objs x_odir x_store x_next x_refs]; try apply R; auto; try (pose proof (q_next _ _ R); lia).
      * intros o X D. destruct (Z.eq_dec o v) as [->|]. { exfalso. apply (X k). rewrite Ed. apply in_or_app. right. left. auto. } rewrite upd_other by auto. apply (q_out _ _ R); auto.
      * rewrite Al. intros j c o Hc X. rewrite Er in Hc. apply set_In in X; [|apply R]. apply in_app_iff in Hc. destruct X as [[-> ->]|[Nj X]].
        { destruct Hc as [Hc|[Hc|[]]]. { exfalso. apply Hin. rewrite <- (q_keys _ _ R). eapply In_key; eauto. } injection Hc as <-. split; cbn; apply upd_same. }
        { destruct Hc as [Hc|[Hc|[]]]; [|congruence]. destruct (I j c o Hc X) as [T1 T2]. assert (c <> t_next s) by (apply Fr; apply in_map_iff; exists (j, c); auto). assert (o <> v) by (intros ->; apply (Hv j); auto).
          split; cbn; rewrite upd_other by auto; auto. rewrite Qt; auto. }
    + assert (Al : d_att l = false) by (rewrite <- A; symmetry; apply (q_att _ _ R)). rewrite Al in I. eexists. split; [reflexivity|]. split; [|reflexivity].
      constructor; cbn [d_att d_reg d_map d_busy d_key d_dead with_map t_att t_reg t_refs t_next t_objs t_store t_odir t_key x_objs x_odir x_store x_next x_refs]; try apply R; auto; try (pose proof (q_next _ _ R); lia).
      * intros o X D. apply (q_out _ _ R); auto.
      * rewrite Al. intros j o X. apply set_In in X; [|apply R]. destruct X as [[-> ->]|[Nj X]].
        { rewrite upd_same. auto. }
        { destruct (I j o X) as [T1 T2]. rewrite upd_other by auto. auto. }
Qed.
