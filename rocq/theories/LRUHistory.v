(** Facts about the specification of C15: what survives in the cache, in terms of the history. *)
From Verif Require Import Base BaseFacts LRUModel LRUProofs LRUSpec.
From Coq Require Import ZArith List Bool Lia.
Import ListNotations.
Open Scope nat_scope.

Section Lemmas.
Variables K V : Type.
Variable keqb : K -> K -> bool.
Hypothesis keqb_spec : forall a b, keqb a b = true <-> a = b.

Lemma al_remove_cons : forall a v l k, al_remove K V keqb ((a, v) :: l) k =
  if keqb k a then al_remove K V keqb l k else (a, v) :: al_remove K V keqb l k.
Proof. intros. unfold al_remove. cbn. destruct (keqb k a); auto. Qed.

Lemma al_get_remove_other : forall l k k', k <> k' -> al_get K V keqb (al_remove K V keqb l k) k' = al_get K V keqb l k'.
Proof.
  induction l as [|[a v] l IH]; intros k k' H; auto. rewrite al_remove_cons.
  destruct (keqb k a) eqn:E; cbn [al_get].
  - apply keqb_spec in E; subst. rewrite (keqb_neq K keqb keqb_spec k' a) by auto. apply IH; auto.
  - rewrite IH; auto.
Qed.

Lemma al_get_firstn : forall n l k v, al_get K V keqb (firstn n l) k = Some v -> al_get K V keqb l k = Some v.
Proof.
  induction n; intros l k v H; [discriminate|]. destruct l as [|[a w] l]; [discriminate|]. cbn in *.
  destruct (keqb k a); auto.
Qed.

Lemma al_get_remove_same : forall l k, al_get K V keqb (al_remove K V keqb l k) k = None.
Proof.
  induction l as [|[a v] l IH]; intros k; auto. rewrite al_remove_cons. destruct (keqb k a) eqn:E; cbn [al_get]; auto. rewrite E. auto.
Qed.

Lemma spec_sound : forall cap o l h,
  (forall k v, al_get K V keqb l k = Some v -> last_set K V keqb h k = Some v) ->
  forall k v, al_get K V keqb (fst (spec_step K V keqb cap l o)) k = Some v -> last_set K V keqb (h ++ [o]) k = Some v.
Proof.
  intros cap o l h HI k v H.
  assert (E : last_set K V keqb (h ++ [o]) k =
    match o with
    | OSet _ _ k' v' => if keqb k' k then Some v' else last_set K V keqb h k
    | ODel _ _ k' => if keqb k' k then None else last_set K V keqb h k
    | _ => last_set K V keqb h k end).
  { unfold last_set. rewrite fold_left_app. cbn. destruct o; auto. }
  rewrite E. clear E. destruct o as [k0 v0|k0|k0|k0]; cbn [spec_step] in H.
  - destruct (keqb k0 k) eqn:Ek.
    + apply keqb_spec in Ek; subst. destruct (al_get K V keqb l k); cbn in H; rewrite (keqb_refl K keqb keqb_spec) in H; auto.
    + assert (k <> k0) by (intro; subst; rewrite (keqb_refl K keqb keqb_spec) in Ek; discriminate).
      destruct (al_get K V keqb l k0); cbn in H; rewrite (keqb_neq K keqb keqb_spec k k0) in H by auto.
      * rewrite al_get_remove_other in H by auto. auto.
      * apply al_get_firstn in H. auto.
  - destruct (al_get K V keqb l k0) eqn:E0; cbn in H; auto.
    destruct (keqb k k0) eqn:Ek.
    + apply keqb_spec in Ek; subst. inversion H; subst. auto.
    + rewrite al_get_remove_other in H; auto. intro; subst; rewrite (keqb_refl K keqb keqb_spec) in Ek; discriminate.
  - destruct (keqb k0 k) eqn:Ek.
    + apply keqb_spec in Ek; subst. destruct (al_get K V keqb l k) eqn:E0; cbn in H; [|congruence].
      rewrite al_get_remove_same in H. discriminate.
    + assert (k0 <> k) by (intro; subst; rewrite (keqb_refl K keqb keqb_spec) in Ek; discriminate).
      destruct (al_get K V keqb l k0); cbn in H; auto. rewrite al_get_remove_other in H; auto.
  - cbn in H. auto.
Qed.

Lemma spec_run_sound : forall cap os l h,
  (forall k v, al_get K V keqb l k = Some v -> last_set K V keqb h k = Some v) ->
  forall k v, al_get K V keqb (fst (spec_run K V keqb cap l os)) k = Some v -> last_set K V keqb (h ++ os) k = Some v.
Proof.
  intros cap os. induction os as [|o os IH]; intros l h HI k v H; cbn [spec_run] in H.
  - rewrite app_nil_r. auto.
  - pose proof (spec_sound cap o l h HI) as HS.
    destruct (spec_step K V keqb cap l o) as [l1 r]. cbn [fst] in HS.
    specialize (IH l1 (h ++ [o]) HS k v). destruct (spec_run K V keqb cap l1 os) as [l2 rs].
    rewrite <- app_assoc in IH. apply IH. exact H.
Qed.

(** a key stays as long as fewer than [cap] other keys were touched since *)
Definition near (k : K) (v : V) (seen : list K) (l : list (K * V)) : Prop :=
  exists l1 l2, l = l1 ++ (k, v) :: l2 /\ (forall x, In x (map fst l1) -> In x seen /\ x <> k) /\ NoDup (map fst l).

Lemma near_get : forall k v seen l, near k v seen l -> al_get K V keqb l k = Some v.
Proof.
  intros k v seen l (l1 & l2 & -> & _ & ND). apply In_al_get; auto. apply in_or_app; right; left; auto.
Qed.

Lemma near_step : forall cap o l k v seen,
  near k v seen l ->
  length (filter (fun x => negb (keqb x k)) seen) < cap ->
  incl (touched K V o) seen ->
  match o with ODel _ _ k' => k' <> k | OSet _ _ k' _ => k' <> k | _ => True end ->
  near k v seen (fst (spec_step K V keqb cap l o)).
Proof.
  intros cap o l k v seen HN HL Ht Hok.
  destruct HN as (l1 & l2 & El & Hs & ND). 
  assert (HN : near k v seen l) by (exists l1, l2; auto).
  pose proof (near_get _ _ _ _ HN) as HG.
  assert (Hfront : forall k' w v', In (k', w) l -> k' <> k -> In k' seen ->
     near k v seen ((k', v') :: al_remove K V keqb l k')).
  { intros k' w v' Hin Hne Hsn. apply in_split in Hin. destruct Hin as [a [b Eab]].
    rewrite Eab in ND. rewrite Eab, (al_remove_split K V keqb keqb_spec) by auto.
    pose proof (NoDup_front K V a b k' w v' ND) as ND'.
    rewrite El in Eab. clear El HN HG.
    assert (Hcases : (exists m, a = l1 ++ (k, v) :: m /\ l2 = m ++ (k', w) :: b) \/
                     (exists m, l1 = a ++ (k', w) :: m /\ b = m ++ (k, v) :: l2)).
    { apply app_eq_app in Eab. destruct Eab as [z [[Z1 Z2]|[Z1 Z2]]].
      - destruct z as [|y z]; cbn in Z2; inversion Z2; subst; [contradiction|]. right. exists z. auto.
      - destruct z as [|y z]; cbn in Z2; inversion Z2; subst; [contradiction|]. left. exists z. auto. }
    destruct Hcases as [[m [-> ->]]|[m [-> ->]]].
    - exists ((k', v') :: l1), (m ++ b). split; [cbn; rewrite <- app_assoc; auto|]. split.
      + intros x [<-|Hx]; [auto|apply Hs; auto].
      + exact ND'.
    - exists ((k', v') :: a ++ m), l2. split; [cbn; rewrite <- !app_assoc; auto|]. split.
      + intros x [<-|Hx]; [auto|]. apply Hs. rewrite map_app in *. cbn. apply in_app_or in Hx. apply in_or_app. destruct Hx; auto. right; right; auto.
      + exact ND'. }
  destruct o as [k' v'|k'|k'|k']; cbn [spec_step touched] in *.
  - destruct (al_get K V keqb l k') as [w|] eqn:E; cbn [fst].
    + apply (al_get_In K V keqb keqb_spec) in E.
      apply Hfront with w; auto. apply Ht; left; auto.
    + apply (al_get_None K V keqb keqb_spec) in E.
      assert (Hlen : length l1 < cap - 1 \/ cap - 1 <= length l1) by lia.
      assert (Hlt : length l1 < cap - 1).
      { assert (length (k' :: map fst l1) <= length (filter (fun x => negb (keqb x k)) seen)).
        { apply NoDup_incl_length.
          - constructor.
            + intro; apply E. rewrite El, map_app. apply in_or_app; auto.
            + rewrite El, map_app in ND. apply NoDup_app_remove_r in ND. auto.
          - intros x [<-|Hx]; apply filter_In.
            + split; [apply Ht; left; auto|]. rewrite (keqb_neq K keqb keqb_spec); auto.
            + destruct (Hs x Hx). split; auto. rewrite (keqb_neq K keqb keqb_spec); auto. }
        cbn [length] in H. rewrite map_length in H. lia. }
      exists ((k', v') :: l1), (firstn (cap - 1 - S (length l1)) l2). rewrite El.
      assert (Ef : firstn (cap - 1) (l1 ++ (k, v) :: l2) = l1 ++ (k, v) :: firstn (cap - 1 - S (length l1)) l2).
      { rewrite firstn_app, firstn_all2 by lia. f_equal.
        replace (cap - 1 - length l1) with (S (cap - 1 - S (length l1))) by lia. reflexivity. }
      rewrite Ef. split; auto. split.
      * intros x [<-|Hx]; [split; auto; apply Ht; left; auto|apply Hs; auto].
      * cbn [map fst]. rewrite <- Ef. constructor.
        -- intro H. apply E. rewrite El. rewrite <- (firstn_skipn (cap - 1) (l1 ++ (k, v) :: l2)), map_app. apply in_or_app; auto.
        -- rewrite El in ND. rewrite <- (firstn_skipn (cap - 1) (l1 ++ (k, v) :: l2)), map_app in ND.
           apply NoDup_app_remove_r in ND. auto.
  - destruct (al_get K V keqb l k') as [w|] eqn:E; cbn [fst]; auto.
    apply (al_get_In K V keqb keqb_spec) in E as Ein.
    destruct (keqb k' k) eqn:Ek.
    + apply keqb_spec in Ek; subst k'. rewrite HG in E. inversion E; subst w.
      exists [], (al_remove K V keqb l k). split; auto. split; [intros x []|].
      rewrite El, (al_remove_split K V keqb keqb_spec) by (rewrite <- El; auto).
      apply NoDup_front with v. rewrite <- El. auto.
    + apply Hfront with w; auto.
      * intro; subst; rewrite (keqb_refl K keqb keqb_spec) in Ek; discriminate.
      * apply Ht; left; auto.
  - destruct (al_get K V keqb l k') as [w|] eqn:E; cbn [fst]; auto.
    apply (al_get_In K V keqb keqb_spec) in E. apply in_split in E. destruct E as [a [b Eab]].
    rewrite Eab in *. rewrite (al_remove_split K V keqb keqb_spec) by auto.
    assert (ND' : NoDup (map fst (a ++ b))).
    { apply (NoDup_front K V a b k' w w) in ND. cbn in ND. inversion ND; auto. }
    clear HN HG Hfront. symmetry in El.
    apply app_eq_app in El. destruct El as [z [[Z1 Z2]|[Z1 Z2]]].
    + destruct z as [|y z]; cbn in Z2; inversion Z2; subst; [contradiction|].
      exists (a ++ z), l2. split; [rewrite <- !app_assoc; auto|]. split; auto.
      intros x Hx. apply Hs. rewrite map_app in *. cbn. apply in_app_or in Hx. apply in_or_app. destruct Hx; auto. right; right; auto.
    + destruct z as [|y z]; cbn in Z2; inversion Z2; subst; [contradiction|].
      exists l1, (z ++ b). split; [rewrite <- !app_assoc; auto|]. split; auto.
  - auto.
Qed.

Lemma near_run : forall cap os l k v seen,
  near k v seen l ->
  length (filter (fun x => negb (keqb x k)) seen) < cap ->
  (forall o, In o os -> incl (touched K V o) seen) ->
  no_delete_of K V k os -> no_set_of K V k os ->
  near k v seen (fst (spec_run K V keqb cap l os)).
Proof.
  intros cap os. induction os as [|o os IH]; intros l k v seen HN HL Ht Hd Hs; auto.
  cbn [spec_run]. inversion Hd; subst. inversion Hs; subst.
  assert (HN' : near k v seen (fst (spec_step K V keqb cap l o))).
  { apply near_step; auto. apply Ht; left; auto. destruct o; auto. }
  destruct (spec_step K V keqb cap l o) as [l1 r]. cbn [fst] in HN'.
  specialize (IH l1 k v seen HN' HL). destruct (spec_run K V keqb cap l1 os) as [l2 rs]. apply IH; auto.
  intros; apply Ht; right; auto.
Qed.

Lemma spec_step_NoDup : forall cap l o, NoDup (map fst l) -> NoDup (map fst (fst (spec_step K V keqb cap l o))).
Proof.
  intros cap l o ND.
  assert (Hf : forall k v w, al_get K V keqb l k = Some w -> NoDup (map fst ((k, v) :: al_remove K V keqb l k))).
  { intros k v w E. apply (al_get_In K V keqb keqb_spec) in E. apply in_split in E. destruct E as [a [b ->]].
    rewrite (al_remove_split K V keqb keqb_spec) by auto. apply NoDup_front with w; auto. }
  destruct o as [k v|k|k|k]; cbn [spec_step].
  - destruct (al_get K V keqb l k) eqn:E; cbn [fst].
    + eapply Hf; eauto.
    + apply (al_get_None K V keqb keqb_spec) in E.
      rewrite <- (firstn_skipn (cap - 1) l), map_app in ND, E.
      cbn. constructor; [intro; apply E; apply in_or_app; auto|]. apply NoDup_app_remove_r in ND. auto.
  - destruct (al_get K V keqb l k) eqn:E; cbn [fst]; auto. eapply Hf; eauto.
  - destruct (al_get K V keqb l k) eqn:E; cbn [fst]; auto. apply (Hf _ v) in E. cbn in E. inversion E; auto.
  - auto.
Qed.

Lemma spec_run_NoDup : forall cap os l, NoDup (map fst l) -> NoDup (map fst (fst (spec_run K V keqb cap l os))).
Proof.
  intros cap os. induction os as [|o os IH]; intros l ND; auto. cbn [spec_run].
  pose proof (spec_step_NoDup cap l o ND) as N1. destruct (spec_step K V keqb cap l o) as [l1 r].
  specialize (IH l1 N1). destruct (spec_run K V keqb cap l1 os). auto.
Qed.

Lemma spec_run_app : forall cap o1 o2 l,
  fst (spec_run K V keqb cap l (o1 ++ o2)) = fst (spec_run K V keqb cap (fst (spec_run K V keqb cap l o1)) o2).
Proof.
  intros cap o1. induction o1 as [|o o1 IH]; intros o2 l; auto. cbn [app spec_run].
  destruct (spec_step K V keqb cap l o) as [l1 r]. specialize (IH o2 l1).
  destruct (spec_run K V keqb cap l1 (o1 ++ o2)). destruct (spec_run K V keqb cap l1 o1). cbn [fst] in *. auto.
Qed.

Lemma near_set : forall cap l k v seen, NoDup (map fst l) ->
  near k v seen (fst (spec_step K V keqb cap l (OSet K V k v))).
Proof.
  intros cap l k v seen ND. pose proof (spec_step_NoDup cap l (OSet K V k v) ND) as N.
  cbn [spec_step] in *. destruct (al_get K V keqb l k); cbn [fst] in *.
  - exists [], (al_remove K V keqb l k). split; [auto|split; [intros x []|auto]].
  - exists [], (firstn (cap - 1) l). split; [auto|split; [intros x []|auto]].
Qed.

(** transfer to the modelled cache *)
Lemma run_app_fst : forall o1 o2 s, fst (run K V keqb s (o1 ++ o2)) = fst (run K V keqb (fst (run K V keqb s o1)) o2).
Proof.
  intros o1. induction o1 as [|o o1 IH]; intros o2 s; auto. cbn [app run].
  destruct (step K V keqb s o) as [s1 r]. specialize (IH o2 s1).
  destruct (run K V keqb s1 (o1 ++ o2)). destruct (run K V keqb s1 o1). cbn [fst] in *. auto.
Qed.

Lemma get_after : forall size os k,
  snd (get K V (fst (run K V keqb (init K V size) os)) k) =
  al_get K V keqb (fst (spec_run K V keqb (S size) [] os)) k.
Proof.
  intros size os k.
  destruct (run_refines K V keqb keqb_spec (S size) os (init K V size) [] ltac:(lia) (Inv_init K V size)) as [HO HI].
  pose proof (step_refines K V keqb keqb_spec (S size) _ _ (OGet K V k) ltac:(lia) HI) as HO'.
  cbn [step spec_step] in HO'.
  destruct (get K V (fst (run K V keqb (init K V size) os)) k) as [s' r]. cbn [snd fst] in *.
  destruct (al_get K V keqb (fst (spec_run K V keqb (S size) [] os)) k); cbn [snd] in HO'; destruct HO'; congruence.
Qed.

Lemma get_sound : forall size os k v,
  snd (get K V (fst (run K V keqb (init K V size) os)) k) = Some v -> last_set K V keqb os k = Some v.
Proof.
  intros size os k v H. rewrite get_after in H.
  apply (spec_run_sound (S size) os [] []); auto.
Qed.

Lemma get_retained : forall size h1 h2 k v ks,
  no_delete_of K V k h2 -> no_set_of K V k h2 -> length ks <= size ->
  (forall o x, In o h2 -> In x (touched K V o) -> x = k \/ In x ks) ->
  snd (get K V (fst (run K V keqb (init K V size) (h1 ++ OSet K V k v :: h2))) k) = Some v.
Proof.
  intros size h1 h2 k v ks Hd Hs Hl Ht. rewrite get_after.
  apply near_get with (seen := k :: ks).
  rewrite spec_run_app. 
  assert (ND : NoDup (map fst (fst (spec_run K V keqb (S size) [] h1)))) by (apply spec_run_NoDup; constructor).
  set (l := fst (spec_run K V keqb (S size) [] h1)) in *.
  pose proof (near_set (S size) l k v (k :: ks) ND) as HN. cbn [spec_run].
  destruct (spec_step K V keqb (S size) l (OSet K V k v)) as [l1 r]. cbn [fst] in HN.
  assert (HR : near k v (k :: ks) (fst (spec_run K V keqb (S size) l1 h2))).
  { apply near_run; auto.
    - cbn [filter]. rewrite (keqb_refl K keqb keqb_spec). cbn [negb].
      assert (forall l' : list K, length (filter (fun x => negb (keqb x k)) l') <= length l').
      { induction l' as [|y l' IH]; cbn; auto. destruct (keqb y k); cbn; lia. }
      specialize (H ks). lia.
    - intros o Ho x Hx. destruct (Ht o x Ho Hx); [subst; left; auto|right; auto]. }
  destruct (spec_run K V keqb (S size) l1 h2). auto.
Qed.
End Lemmas.
