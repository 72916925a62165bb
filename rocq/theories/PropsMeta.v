(** C60, C62: registration of class and property definitions, and lookups through them. *)
From Verif Require Import Base BaseFacts TypesModel TimelineModel MetaModel MetaFacts MetaTables.
From Coq Require Import ZArith List Bool String Lia.
Import ListNotations.
Open Scope Z_scope.

(** ** C60: registration *)

(** What a program can do to the meta dictionary of a file: register a class (metadict.py:398), an
    alias (346), a property of a class found by its identifier (237), a type (353). *)
Inductive mop : Type := OClass (r : crow) | OAlias (alias name : string) | OProp (a : Z) (r : prow) | OType (t : tdef).
Definition mstep (m : meta) (o : mop) : result meta :=
  match o with
  | OClass r => register_classdef m r
  | OAlias a n => register_alias m (a, n)
  | OProp a r => match zget (m_cauid m) a with Some h => register_propertydef m h r | None => Err GenericError end
  | OType t => register_type m t
  end.
Fixpoint mrun (m : meta) (ops : list mop) : result meta :=
  match ops with [] => Ok m | o :: r => do m <- mstep m o ;; mrun m r end.
(** A direct call of register_propertydef leaves the choice of a dynamic id to the dictionary. *)
Definition lets_choose (o : mop) : Prop :=
  match o with OProp _ r => match pr_pid r with Some pid => pid < 32768 | None => True end | _ => True end.
Definition no_alias (o : mop) : Prop := match o with OAlias _ _ => False | _ => True end.

Lemma mstep_ok : forall m o m', MInv m -> lets_choose o -> mstep m o = Ok m' -> MInv m' /\ grows m m'.
Proof.
  intros m [r|a n|a r|t] m' M L E; cbn [mstep] in E.
  - apply register_classdef_ok in E as (A & B & _); auto.
  - apply register_alias_ok in E; auto.
  - destruct (zget (m_cauid m) a) as [h|]; [|discriminate]. pose proof M as (P & _). apply register_propertydef_ok in E as [P' S]; auto.
    split; [eapply skel_MInv; eauto|apply skel_grows; auto].
  - apply register_type_same in E. apply same_classes_ok; auto.
Qed.
Lemma mrun_ok : forall ops m m', MInv m -> Forall lets_choose ops -> mrun m ops = Ok m' -> MInv m' /\ grows m m'.
Proof.
  induction ops as [|o ops IH]; cbn [mrun]; intros m m' M F E; [injection E as <-; split; [auto|apply grows_refl]|].
  inversion F as [|? ? F1 F2]; subst. destruct (mstep m o) as [m1|] eqn:E1; [|discriminate]. cbn [bind] in E.
  apply mstep_ok in E1 as [M1 G1]; auto. apply IH in E as [M2 G2]; auto. split; auto. eapply grows_trans; eauto.
Qed.
Lemma class_of_grows : forall m m' a c, grows m m' -> class_of m a = Some c ->
  exists c', class_of m' a = Some c' /\ same_head c c' /\ forall k p, zget (c_props c) k = Some p -> zget (c_props c') k = Some p.
Proof.
  intros m m' a c (G1 & _ & G3). unfold class_of. destruct (zget (m_cauid m) a) as [h|] eqn:E; [|discriminate]. intros X. rewrite (G1 _ _ E). auto.
Qed.
Lemma class_of_heap : forall m a c, MInv m -> class_of m a = Some c -> exists h, nth_error (m_heap m) h = Some c /\ zget (m_cauid m) a = Some h /\ c_auid c = a.
Proof.
  intros m a c (_ & _ & B & _). unfold class_of. destruct (zget (m_cauid m) a) as [h|] eqn:E; [|discriminate]. intros X. exists h. split; auto. split; auto.
  apply B in E as (x & E & H). congruence.
Qed.

(** However classes, aliases, properties and types are registered: a class found by any name is found
    by its identifier, the identifier it is found by is its own, and so for its properties. *)
Theorem C60_lookups_agree : forall ops m, Forall lets_choose ops -> mrun meta0 ops = Ok m ->
  (forall n c, class_named m n = Some c -> class_of m (c_auid c) = Some c) /\
  (forall a c, class_of m a = Some c -> c_auid c = a) /\
  (forall a c k p, class_of m a = Some c -> (zget (c_props c) k = Some p <-> In p (props c) /\ p_auid p = k)).
Proof.
  intros ops m F E. apply mrun_ok in E as [M _]; auto using MInv0. pose proof M as (P & A & B & C). split; [|split].
  - intros n c. unfold class_named, class_of. destruct (sget (m_cname m) n) as [h|]; [|discriminate]. intros X. rewrite (C _ _ X). auto.
  - intros a c X. apply class_of_heap in X as (h & _ & _ & X); auto.
  - intros a c k p X. apply class_of_heap in X as (h & X & _); auto. destruct P as (P & _). destruct (P _ _ X) as (N & K & _). split.
    + intros G. split; [|auto]. apply zget_In in G. apply (in_map snd) in G. exact G.
    + intros [I <-]. unfold props in I. apply in_map_iff in I as ([k' p'] & Ep & I). cbn in Ep. subst p'. pose proof (In_zget _ _ _ _ N I) as G. rewrite (K _ _ G). auto.
Qed.

(** What is registered stays: a class keeps its name, identifier, parent and kind, and each of its
    properties keeps its definition, whatever is registered afterwards. *)
Theorem C60_registered_stays : forall ops1 ops2 m1 m2, Forall lets_choose (ops1 ++ ops2) -> mrun meta0 ops1 = Ok m1 -> mrun m1 ops2 = Ok m2 ->
  forall a c, class_of m1 a = Some c ->
  exists c', class_of m2 a = Some c' /\ c_name c' = c_name c /\ c_auid c' = c_auid c /\ c_parent c' = c_parent c /\ c_conc c' = c_conc c /\
    forall p, In p (props c) -> In p (props c').
Proof.
  intros ops1 ops2 m1 m2 F E1 E2 a c X. apply Forall_app in F as [F1 F2]. pose proof (C60_lookups_agree _ _ F1 E1) as (_ & _ & Q1).
  apply mrun_ok in E1 as [M1 _]; auto using MInv0. apply mrun_ok in E2 as [M2 G]; auto.
  destruct (class_of_grows _ _ _ _ G X) as (c' & X' & (H1 & H2 & H3 & H4) & K). exists c'. repeat (split; [auto|]). intros p I.
  assert (Z : zget (c_props c) (p_auid p) = Some p) by (apply (Q1 _ _ _ _ X); auto). apply K in Z. apply zget_In in Z. apply (in_map snd) in Z. exact Z.
Qed.

(** Two property definitions of registered classes with the same dynamic id are one definition. *)
Theorem C60_dynamic_ids : forall ops m, Forall lets_choose ops -> mrun meta0 ops = Ok m ->
  forall a c p b d q, class_of m a = Some c -> In p (props c) -> class_of m b = Some d -> In q (props d) ->
  32768 <= p_pid p -> p_pid p = p_pid q -> a = b /\ p = q.
Proof.
  intros ops m F E a c p b d q X I Y J D Eq. apply mrun_ok in E as [M _]; auto using MInv0.
  apply class_of_heap in X as (h & X & _ & <-); auto. apply class_of_heap in Y as (k & Y & _ & <-); auto.
  destruct M as ((_ & _ & One) & _). destruct (One _ _ _ _ _ _ X I Y J Eq D) as [-> ->]. split; [|auto]. congruence.
Qed.

(** Without aliases every class is found by its own name. *)
Lemma register_classdef_new : forall m r m' h c', MInv m -> register_classdef m r = Ok m' -> nth_error (m_heap m') h = Some c' ->
  (exists c, nth_error (m_heap m) h = Some c /\ c_name c' = c_name c) \/ (c_name c' = cr_name r /\ sget (m_cname m') (cr_name r) = Some h).
Proof.
  intros m r m' h c' M E X. unfold register_classdef in E. destruct (class_place _ _ _ _ _) as [[m1 h1]|] eqn:E1; [|discriminate]. cbn [bind fst snd] in E.
  destruct (register_props m1 h1 (cr_props r)) as [m2|] eqn:E2; [|discriminate]. cbn [bind] in E. unfold enter_class in E.
  destruct (nth_error (m_heap m2) h1) as [c2|] eqn:E3; [|discriminate]. injection E as <-. cbn [m_heap m_cname] in *. pose proof M as (P & A & B & C). unfold class_place in E1.
  destruct (sget (m_cname m) (cr_name r)) as [h0|] eqn:N.
  - injection E1 as <- <-. destruct (register_props_ok _ _ _ _ P E2) as [P2 S2]. destruct (skel_back _ _ _ _ S2 X) as (c & Y & (H & _)). left. eauto.
  - destruct (zget (m_cauid m) (cr_auid r)); [discriminate|]. injection E1 as E1 E1h.
    assert (P1 : PInv m1).
    { subst m1. destruct P as (Pa & Pb & Pc).
      assert (Hnp : forall k x p, nth_error (m_heap m ++ [CDef (cr_name r) (cr_auid r) match cr_parent r with Some p => p | None => cr_auid r end (cr_conc r) [] []]) k = Some x -> In p (props x) -> nth_error (m_heap m) k = Some x).
      { intros k x p Y I. apply nth_app_new in Y as [Y|[_ ->]]; auto. destruct I. }
      unfold PInv, pids_in, pids_one. mcbn. split; [|split].
      - intros k x Y. apply nth_app_new in Y as [Y|[_ ->]]; [eauto|]. unfold cls_ok, props, zget. cbn. repeat split; try constructor; try discriminate; tauto.
      - intros k x p Y I D. pose proof (Hnp _ _ _ Y I). eapply Pb; eauto.
      - intros k1 x1 p1 k2 x2 p2 X1 I1 X2 I2. pose proof (Hnp _ _ _ X1 I1). pose proof (Hnp _ _ _ X2 I2). eapply Pc; eauto. }
    destruct (register_props_ok _ _ _ _ P1 E2) as [P2 S2]. destruct (skel_back _ _ _ _ S2 X) as (c & Y & (H & _)). rewrite <- E1 in Y. cbn [m_heap] in Y.
    apply nth_app_new in Y as [Y|[-> ->]]; [left; eauto|]. right. split; [exact H|]. rewrite sget_set, String.eqb_refl. congruence.
Qed.
Definition own_names (m : meta) : Prop := forall h c, nth_error (m_heap m) h = Some c -> sget (m_cname m) (c_name c) = Some h.
Lemma mrun_names : forall ops m m', MInv m -> own_names m -> Forall lets_choose ops -> Forall no_alias ops -> mrun m ops = Ok m' -> own_names m'.
Proof.
  induction ops as [|o ops IH]; cbn [mrun]; intros m m' M O F G E; [injection E as <-; auto|].
  inversion F as [|? ? F1 F2]; subst. inversion G as [|? ? G1 G2]; subst. destruct (mstep m o) as [m1|] eqn:E1; [|discriminate]. cbn [bind] in E.
  destruct (mstep_ok _ _ _ M F1 E1) as [M1 _]. apply (IH m1); auto. clear E IH. destruct o as [r|a n|a r|t]; cbn [mstep] in E1; [| destruct G1 | |].
  - intros h c X. destruct (register_classdef_ok _ _ _ M E1) as (_ & _ & Nm & _). destruct (register_classdef_new _ _ _ _ _ M E1 X) as [(c0 & Y & Hn)|[Hn Y]].
    + rewrite Hn. auto.
    + rewrite Hn. auto.
  - destruct (zget (m_cauid m) a) as [k|]; [|discriminate]. pose proof M as (P & _). apply register_propertydef_ok in E1 as [_ S]; auto.
    intros h c X. destruct (skel_back _ _ _ _ S X) as (c0 & Y & (Hn & _)). destruct S as (Q1 & _). rewrite Q1, Hn. auto.
  - apply register_type_same in E1 as (H1 & H2 & _). intros h c. rewrite H1, H2. apply O.
Qed.
Theorem C60_own_name : forall ops m, Forall lets_choose ops -> Forall no_alias ops -> mrun meta0 ops = Ok m ->
  forall a c, class_of m a = Some c -> class_named m (c_name c) = Some c.
Proof.
  intros ops m F G E a c X. assert (O : own_names m). { eapply mrun_names; eauto using MInv0. intros [|h] x Y; discriminate. }
  apply mrun_ok in E as [M _]; auto using MInv0. apply class_of_heap in X as (h & X & _); auto. unfold class_named. rewrite (O _ _ X). auto.
Qed.

(** A class registered under a new name and identifier is there afterwards with the given parent and
    kind, and with the given properties in the given order; an id left open is one that no property
    used. *)
Definition row_kept (used : list Z) (r : prow) (p : pdef) : Prop :=
  p_name p = pr_name r /\ p_auid p = pr_auid r /\ p_type p = pr_type r /\ p_opt p = pr_opt r /\ p_uniq p = pr_uniq r /\
  match pr_pid r with Some pid => p_pid p = pid | None => ~ In (p_pid p) used end.
Lemma register_prop_adds : forall m h r c m', nth_error (m_heap m) h = Some c -> zget (c_props c) (pr_auid r) = None -> register_prop m h r = Ok m' ->
  exists pid c', nth_error (m_heap m') h = Some c' /\ same_head c c' /\
    c_props c' = c_props c ++ [(pr_auid r, PDef (pr_name r) (pr_auid r) pid (pr_type r) (pr_opt r) (pr_uniq r))] /\
    row_kept (snd (m_pids m)) r (PDef (pr_name r) (pr_auid r) pid (pr_type r) (pr_opt r) (pr_uniq r)) /\ incl (snd (m_pids m)) (snd (m_pids m')).
Proof.
  intros m h r c m' X N. unfold register_prop.
  assert (Q : forall pid st, incl (snd (m_pids m)) (snd st) -> match pr_pid r with Some q => pid = q | None => ~ In pid (snd (m_pids m)) end ->
    register_propertydef (with_pids m st) h (PRow (pr_name r) (pr_auid r) (Some pid) (pr_type r) (pr_opt r) (pr_uniq r)) = Ok m' ->
    exists pid c', nth_error (m_heap m') h = Some c' /\ same_head c c' /\
    c_props c' = c_props c ++ [(pr_auid r, PDef (pr_name r) (pr_auid r) pid (pr_type r) (pr_opt r) (pr_uniq r))] /\
    row_kept (snd (m_pids m)) r (PDef (pr_name r) (pr_auid r) pid (pr_type r) (pr_opt r) (pr_uniq r)) /\ incl (snd (m_pids m)) (snd (m_pids m'))).
  { intros pid st I K E. destruct (register_propertydef_cases _ _ _ _ E) as (c0 & Ec & H). cbn [m_heap with_pids pr_auid] in *. assert (c0 = c) by congruence. subst c0.
    destruct H as [[_ [p H]]|(_ & pid' & st' & H & _ & ->)]; [congruence|]. cbn [pr_pid m_pids] in H. destruct H as [[H ->]|[H _]]; [|discriminate]. injection H as <-.
    exists pid. eexists. cbn [m_heap with_pids with_class]. rewrite (upd_same _ _ _ _ _ X). split; [reflexivity|]. split; [repeat split|].
    cbn [add_prop c_props pr_auid pr_name pr_type pr_opt pr_uniq]. rewrite zset_new by auto. split; auto. split; [|exact I].
    unfold row_kept. cbn. repeat (split; [auto|]). destruct (pr_pid r); auto. }
  destruct (pr_pid r) as [pid|].
  - destruct (claim_pid (m_pids m) pid) as [st|] eqn:C; [|discriminate]. cbn [bind fst snd]. apply Q; auto.
    apply claim_fresh in C as [[_ ->]|(_ & _ & ->)]; [apply incl_refl|apply incl_tl, incl_refl].
  - destruct (next_free_pid (m_pids m)) as [[pid st]|] eqn:C; [|discriminate]. cbn [bind fst snd]. apply next_free_fresh in C as [C1 C2].
    apply Q; auto. rewrite C2. apply incl_tl, incl_refl.
Qed.
Lemma register_props_adds : forall l m h c m' used, nth_error (m_heap m) h = Some c -> incl used (snd (m_pids m)) -> NoDup (map pr_auid l) ->
  (forall r, In r l -> zget (c_props c) (pr_auid r) = None) -> register_props m h l = Ok m' ->
  exists c' new, nth_error (m_heap m') h = Some c' /\ same_head c c' /\ props c' = props c ++ new /\ Forall2 (row_kept used) l new.
Proof.
  induction l as [|r l IH]; cbn [register_props map]; intros m h c m' used X I N Z E.
  - injection E as <-. exists c, []. rewrite app_nil_r. split; auto. split; [repeat split|]. auto.
  - destruct (register_prop m h r) as [m1|] eqn:E1; [|discriminate]. cbn [bind] in E. inversion N as [|? ? N1 N2]; subst.
    destruct (register_prop_adds _ _ _ _ _ X (Z r (or_introl eq_refl)) E1) as (pid & c1 & X1 & (H1 & H2 & H3 & H4) & P1 & K1 & I1).
    destruct (IH m1 h c1 m' used) as (c' & new & X' & (G1 & G2 & G3 & G4) & P' & F); auto.
    + eapply incl_tran; eauto.
    + intros r' I'. pose proof (Z r (or_introl eq_refl)) as Z0. specialize (Z r' (or_intror I')). rewrite <- zset_new in P1 by exact Z0. rewrite P1, zget_set.
      destruct (Z.eqb_spec (pr_auid r) (pr_auid r')) as [Eq|]; auto. exfalso. apply N1. rewrite Eq. apply in_map. auto.
    + eexists c', (_ :: new). split; auto. split; [repeat split; congruence|]. unfold props in *. rewrite P', P1, map_app, <- app_assoc. cbn [map snd app]. split; [reflexivity|].
      constructor; auto. destruct K1 as (K1 & K2 & K3 & K4 & K5 & K6). repeat (split; [auto|]). destruct (pr_pid r); auto.
Qed.
Theorem C60_new_class : forall ops m r m', Forall lets_choose ops -> mrun meta0 ops = Ok m ->
  class_named m (cr_name r) = None -> class_of m (cr_auid r) = None -> NoDup (map pr_auid (cr_props r)) -> register_classdef m r = Ok m' ->
  exists c, class_of m' (cr_auid r) = Some c /\ class_named m' (cr_name r) = Some c /\
    c_name c = cr_name r /\ c_auid c = cr_auid r /\ c_parent c = match cr_parent r with Some p => p | None => cr_auid r end /\ c_conc c = cr_conc r /\
    Forall2 (row_kept (snd (m_pids m))) (cr_props r) (props c).
Proof.
  intros ops m r m' F E N1 N2 D E1. apply mrun_ok in E as [M _]; auto using MInv0. pose proof (register_classdef_ok _ _ _ M E1) as (M' & _). pose proof M as (P & A & B & C).
  unfold register_classdef, class_place in E1. unfold class_named in N1. unfold class_of in N2.
  destruct (sget (m_cname m) (cr_name r)) as [h|] eqn:S; [apply A in S as (x & S); congruence|].
  destruct (zget (m_cauid m) (cr_auid r)) as [h|] eqn:Z; [apply B in Z as (x & Z & _); congruence|].
  cbn [bind fst snd] in E1. set (c := CDef _ _ _ _ [] []) in E1. set (m1 := Meta (m_heap m ++ [c]) _ _ _ _ _ _ _ _) in E1.
  destruct (register_props m1 (List.length (m_heap m)) (cr_props r)) as [m2|] eqn:E2; [|discriminate]. cbn [bind] in E1.
  assert (X : nth_error (m_heap m1) (List.length (m_heap m)) = Some c) by (unfold m1; cbn [m_heap]; rewrite nth_error_app2, Nat.sub_diag; auto).
  destruct (register_props_adds _ _ _ _ _ (snd (m_pids m)) X (incl_refl _) D (fun _ _ => eq_refl) E2) as (c' & new & X' & (H1 & H2 & H3 & H4) & Pn & K).
  unfold enter_class in E1. rewrite X' in E1. injection E1 as <-. exists c'. unfold class_of, class_named. cbn [m_heap m_cauid m_cname].
  rewrite H2, zget_set, sget_set, String.eqb_refl. cbn [c c_auid]. rewrite Z.eqb_refl. rewrite H1, H3, H4. cbn [c c_name c_parent c_conc].
  repeat (split; [auto|]). cbn in Pn. rewrite Pn. exact K.
Qed.

(** An identifier that is registered cannot be registered under another name: line 415 looks it up
    among the names. *)
Theorem C60_new_name_refuted : forall ops m r c, Forall lets_choose ops -> mrun meta0 ops = Ok m ->
  class_of m (cr_auid r) = Some c -> class_named m (cr_name r) = None -> register_classdef m r = Err KeyError.
Proof.
  intros ops m r c F E X N. apply mrun_ok in E as [M _]; auto using MInv0. pose proof M as (_ & A & _). unfold class_of in X. unfold class_named in N.
  unfold register_classdef, class_place. destruct (sget (m_cname m) (cr_name r)) as [h|] eqn:S; [apply A in S as (x & S); congruence|].
  destruct (zget (m_cauid m) (cr_auid r)); [reflexivity|discriminate].
Qed.
(** A name that is registered hides a new identifier: the call succeeds, and the identifier is not
    found afterwards. *)
Theorem C60_same_name_refuted : forall ops m r c, Forall lets_choose ops -> mrun meta0 ops = Ok m ->
  class_named m (cr_name r) = Some c -> class_of m (cr_auid r) = None -> cr_props r = [] ->
  exists m', register_classdef m r = Ok m' /\ class_of m' (cr_auid r) = None.
Proof.
  intros ops m r c F E N X P. apply mrun_ok in E as [M _]; auto using MInv0. pose proof M as (_ & _ & B & C). unfold class_of in X. unfold class_named in N.
  unfold register_classdef, class_place. destruct (sget (m_cname m) (cr_name r)) as [h|] eqn:S; [|discriminate]. cbn [bind fst snd]. rewrite P. cbn [register_props bind].
  unfold enter_class. rewrite N. eexists. split; [reflexivity|]. unfold class_of. cbn [m_cauid m_heap]. rewrite zget_set.
  destruct (Z.eqb_spec (c_auid c) (cr_auid r)) as [Eq|]; [|exact X]. rewrite <- Eq, (C _ _ N) in X. congruence.
Qed.
(** An id of the dynamic range given to register_propertydef is not checked. *)
Theorem C60_given_id_refuted : exists ops m c p q, mrun meta0 ops = Ok m /\ class_of m 1 = Some c /\ In p (props c) /\ In q (props c) /\
  p_auid p <> p_auid q /\ p_pid p = p_pid q /\ 32768 <= p_pid p.
Proof.
  exists [OClass (CRow "A" 1 None true [PRow "x" 10 None 99 true false]); OProp 1 (PRow "y" 11 (Some 65535) 99 true false)].
  eexists. eexists. exists (PDef "x" 10 65535 99 true false), (PDef "y" 11 65535 99 true false).
  split; [vm_compute; reflexivity|]. split; [vm_compute; reflexivity|]. vm_compute. repeat split; auto; intros; discriminate.
Qed.

(** Non-trivial case: two classes, an alias, properties with static, chosen and claimed ids, a type. *)
Example C60_case :
  let ops := [OClass (CRow "A" 1 None false [PRow "x" 10 (Some 1) 99 false false; PRow "y" 11 None 99 true false; PRow "w" 14 (Some 65000) 99 true false]);
              OType (TDef "T" 99 (KInt 4 true));
              OClass (CRow "B" 2 (Some 1) true [PRow "z" 12 None 99 true false]); OAlias "C" "B"; OProp 1 (PRow "v" 13 None 99 true false);
              OClass (CRow "A" 1 None false [PRow "u" 15 (Some 2) 99 true false])] in
  Forall lets_choose ops /\
  exists m b, mrun meta0 ops = Ok m /\ class_named m "C" = Some b /\ c_auid b = 2 /\ c_name b = "B"%string /\
    map p_pid (flat_map props (m_heap m)) = [1; 65535; 65000; 65533; 2; 65534] /\
    register_classdef m (CRow "D" 2 None true []) = Err KeyError /\
    (exists m', register_classdef m (CRow "A" 7 None true []) = Ok m' /\ class_of m' 7 = None) /\
    register_classdef m (CRow "E" 8 None true [PRow "q" 16 (Some 65000) 99 true false]) = Err AssertionError.
Proof.
  cbv zeta. split; [repeat constructor|]. eexists. eexists. split; [vm_compute; reflexivity|]. split; [vm_compute; reflexivity|]. split; [reflexivity|]. split; [reflexivity|]. split; [vm_compute; reflexivity|].
  split; [vm_compute; reflexivity|]. split; [eexists; split; [vm_compute; reflexivity|vm_compute; reflexivity]|vm_compute; reflexivity].
Qed.

(** ** C62: properties by name, id and identifier *)

(** The ancestors of a class, from the class up. *)
Inductive chain (m : meta) : cdef -> list cdef -> Prop :=
| chain_top : forall c, c_parent c = c_auid c \/ class_of m (c_parent c) = None -> chain m c [c]
| chain_up : forall c p l, c_parent c <> c_auid c -> class_of m (c_parent c) = Some p -> chain m p l -> chain m c (c :: l).
Lemma chain_lineage : forall m c l, chain m c l <-> lineage m c l.
Proof.
  intros m c l. split; intros H.
  - induction H as [c H|c p l N P H IH]; [apply L_top|apply L_child with p; auto]; unfold parent; destruct (Z.eqb_spec (c_parent c) (c_auid c)); auto; try congruence. destruct H; congruence.
  - induction H as [c P|c p l P H IH]; unfold parent in P; destruct (Z.eqb_spec (c_parent c) (c_auid c)); try discriminate; [apply chain_top|apply chain_top|eapply chain_up; eauto]; auto.
Qed.
Lemma relatives_chain : forall m c l, chain m c l -> relatives m c = Ok l.
Proof. intros m c l H. apply relatives_iff, chain_lineage. auto. Qed.

Lemma first_in_some : forall sel k l p, first_in sel k l = Some p -> exists c, In c l /\ zget (sel c) k = Some p.
Proof.
  intros sel k l p. induction l as [|c l IH]; cbn; [discriminate|]. destruct (zget (sel c) k) as [q|] eqn:E.
  - intros X. injection X as ->. eauto.
  - intros X. apply IH in X as (d & I & X). eauto.
Qed.
Lemma first_in_none : forall sel k l, first_in sel k l = None -> forall c, In c l -> zget (sel c) k = None.
Proof.
  intros sel k l. induction l as [|c l IH]; cbn; [tauto|]. destruct (zget (sel c) k) as [q|] eqn:E; [discriminate|]. intros X d [<-|I]; auto.
Qed.
Lemma NoDup_map_inj : forall A B (f : A -> B) l x y, NoDup (map f l) -> In x l -> In y l -> f x = f y -> x = y.
Proof.
  intros A B f l. induction l as [|a l IH]; cbn; [tauto|]. intros x y N [->|I] [->|J] E; auto; inversion N as [|? ? N1 N2]; subst; auto.
  - exfalso. apply N1. rewrite E. apply in_map. auto.
  - exfalso. apply N1. rewrite <- E. apply in_map. auto.
Qed.

(** the classes of a chain are well formed *)
Lemma chain_cls : forall m a c l, MInv m -> class_of m a = Some c -> chain m c l -> forall x, In x l -> cls_ok x.
Proof.
  intros m a c l M X H x I. apply chain_lineage in H. destruct (lineage_heap _ _ _ H) as [T Hd]. apply class_of_heap in X as (h & X & _); auto.
  destruct M as ((P & _) & _). destruct l as [|y l]; [destruct I|]. injection Hd as ->. destruct I as [<-|I]; [eauto|]. apply T in I. apply In_nth_error in I as (k & I). eauto.
Qed.
Theorem C62_by_id : forall ops m a c l, Forall lets_choose ops -> mrun meta0 ops = Ok m -> class_of m a = Some c -> chain m c l ->
  NoDup (map p_pid (flat_map props l)) ->
  forall pid, exists r, propertydef m c pid = Ok r /\ forall p, r = Some p <-> In p (flat_map props l) /\ p_pid p = pid.
Proof.
  intros ops m a c l F E X H N pid. apply mrun_ok in E as [M _]; auto using MInv0. pose proof (chain_cls _ _ _ _ M X H) as K.
  unfold propertydef, get_propertydef_from_pid, all_propertydefs. rewrite (relatives_chain _ _ _ H). cbn [bind].
  assert (U : forall p q, In p (flat_map props l) -> In q (flat_map props l) -> p_pid p = p_pid q -> p = q) by (intros; eapply NoDup_map_inj; eauto).
  destruct (first_in c_bypid pid l) as [q|] eqn:Q.
  - eexists. split; [reflexivity|]. apply first_in_some in Q as (x & I & Q). destruct (K x I) as (_ & _ & K1 & _). apply K1 in Q as [Q1 Q2].
    assert (Iq : In q (flat_map props l)) by (apply in_flat_map; eauto). intros p. split; [intros Y; injection Y as <-; auto|]. intros [Ip Ep]. f_equal. apply U; auto. congruence.
  - eexists. split; [reflexivity|]. intros p. split; [intros Y; apply find_some in Y as [Y1 Y2]; split; [auto|lia]|].
    intros [Ip Ep]. exfalso. apply in_flat_map in Ip as (x & I & Ip). destruct (K x I) as (_ & _ & _ & K2). apply (K2 p Ip). rewrite Ep. eapply first_in_none; eauto.
Qed.
Theorem C62_by_identifier : forall ops m a c l, Forall lets_choose ops -> mrun meta0 ops = Ok m -> class_of m a = Some c -> chain m c l ->
  NoDup (map p_auid (flat_map props l)) ->
  forall k, exists r, lookup_propertydef m c k = Ok r /\ forall p, r = Some p <-> In p (flat_map props l) /\ p_auid p = k.
Proof.
  intros ops m a c l F E X H N k. apply mrun_ok in E as [M _]; auto using MInv0. pose proof (chain_cls _ _ _ _ M X H) as K.
  unfold lookup_propertydef. rewrite (relatives_chain _ _ _ H). cbn [bind]. eexists. split; [reflexivity|]. intros p. split.
  - intros Q. apply first_in_some in Q as (x & I & Q). destruct (K x I) as (_ & K1 & _). split; [|auto]. apply in_flat_map. exists x. split; auto. apply zget_In in Q. apply (in_map snd) in Q. exact Q.
  - intros [Ip Ep]. destruct (first_in c_props k l) as [q|] eqn:Q.
    + apply first_in_some in Q as (x & I & Q). destruct (K x I) as (_ & K1 & _). f_equal. eapply NoDup_map_inj; eauto.
      * apply in_flat_map. exists x. split; auto. apply zget_In in Q. apply (in_map snd) in Q. exact Q.
      * rewrite Ep. auto.
    + exfalso. apply in_flat_map in Ip as (x & I & Ip). destruct (K x I) as (K0 & K1 & _). pose proof (first_in_none _ _ _ Q x I) as Z.
      unfold props in Ip. apply in_map_iff in Ip as ([k' p'] & E' & Ip). cbn in E'. subst p'. pose proof (In_zget _ _ _ _ K0 Ip) as G. rewrite (K1 _ _ G) in Ep. congruence.
Qed.
(** An object with the entries [pids] (each the id of a property of its class): a property is found by
    its name, in the entries if it is there; otherwise a new one is made in the format of its type, but for the
    parameters of an operation group, which are a strong reference set. *)
Theorem C62_by_name : forall ops m a c l pids p t f fuel, Forall lets_choose ops -> mrun meta0 ops = Ok m -> class_of m a = Some c -> chain m c l ->
  NoDup (map p_pid (flat_map props l)) -> NoDup (map p_name (flat_map props l)) ->
  In p (flat_map props l) -> type_of m (p_type p) = Some t -> store_format fuel m t = Ok f ->
  (In (p_pid p) pids -> get_property fuel m c pids (p_name p) = Ok (Entry (p_pid p))) /\
  (~ In (p_pid p) pids -> get_property fuel m c pids (p_name p) = Ok (Fresh p (if p_auid p =? 0x06010104060a0000060e2b3401010102 then 0x3A else f))).
Proof.
  intros ops m a c l pids p t f fuel F E X H N1 N2 I T S. pose proof (C62_by_id _ _ _ _ _ F E X H N1) as B.
  assert (G : forall key, (In (p_pid p) pids /\ p_name p = key -> (fix go (l : list Z) : result (option Z) :=
     match l with [] => Ok None | pid :: r => do p <- propertydef m c pid ;; match p with Some p => if String.eqb (p_name p) key then Ok (Some pid) else go r | None => go r end end) pids = Ok (Some (p_pid p))) /\
     (~ In (p_pid p) pids /\ p_name p = key -> (fix go (l : list Z) : result (option Z) :=
     match l with [] => Ok None | pid :: r => do p <- propertydef m c pid ;; match p with Some p => if String.eqb (p_name p) key then Ok (Some pid) else go r | None => go r end end) pids = Ok None)).
  { intros key. induction pids as [|pid pids [IH1 IH2]]; split; cbn.
    - tauto.
    - auto.
    - intros [I' <-]. destruct (B pid) as (r & Er & Hr). rewrite Er. cbn [bind]. destruct r as [q|].
      + destruct (proj1 (Hr q) eq_refl) as [Iq Eq]. destruct (String.eqb_spec (p_name q) (p_name p)) as [En|En].
        * assert (q = p) by (eapply NoDup_map_inj; [exact N2|exact Iq|exact I|exact En]). subst q. congruence.
        * apply IH1. split; auto. destruct I' as [I'|I']; auto. exfalso. apply En. f_equal. eapply NoDup_map_inj; [exact N1|exact Iq|exact I|congruence].
      + apply IH1. split; auto. destruct I' as [I'|I']; auto. exfalso. assert (None = Some p) by (apply Hr; split; auto). discriminate.
    - intros [I' <-]. destruct (B pid) as (r & Er & Hr). rewrite Er. cbn [bind]. destruct r as [q|]; [|apply IH2; split; [tauto|auto]].
      destruct (proj1 (Hr q) eq_refl) as [Iq Eq]. destruct (String.eqb_spec (p_name q) (p_name p)) as [En|En]; [|apply IH2; split; [tauto|auto]].
      exfalso. apply I'. left. assert (q = p) by (eapply NoDup_map_inj; [exact N2|exact Iq|exact I|exact En]). subst q. congruence. }
  destruct (G (p_name p)) as [G1 G2]. unfold get_property. split; intros Hp.
  - rewrite G1 by auto. reflexivity.
  - rewrite G2 by auto. cbn [bind]. unfold all_propertydefs. rewrite (relatives_chain _ _ _ H). cbn [bind].
    destruct (find (fun q => String.eqb (p_name q) (p_name p)) (flat_map props l)) as [q|] eqn:Q.
    + apply find_some in Q as [Iq Eq]. apply String.eqb_eq in Eq. assert (q = p) by (eapply NoDup_map_inj; [exact N2|exact Iq|exact I|exact Eq]). subst q.
      rewrite T, S. reflexivity.
    + exfalso. apply (find_none _ _ Q) in I. cbn in I. rewrite String.eqb_refl in I. discriminate.
Qed.
(** A name no property of the class has is not found. *)
Theorem C62_no_name : forall ops m a c l pids key fuel, Forall lets_choose ops -> mrun meta0 ops = Ok m -> class_of m a = Some c -> chain m c l ->
  NoDup (map p_pid (flat_map props l)) -> (forall p, In p (flat_map props l) -> p_name p <> key) -> get_property fuel m c pids key = Ok Missing.
Proof.
  intros ops m a c l pids key fuel F E X H N1 K. pose proof (C62_by_id _ _ _ _ _ F E X H N1) as B. unfold get_property.
  assert (G : (fix go (l : list Z) : result (option Z) :=
     match l with [] => Ok None | pid :: r => do p <- propertydef m c pid ;; match p with Some p => if String.eqb (p_name p) key then Ok (Some pid) else go r | None => go r end end) pids = Ok None).
  { induction pids as [|pid pids IH]; [reflexivity|]. destruct (B pid) as (r & Er & Hr). rewrite Er. cbn [bind]. destruct r as [q|]; [|exact IH].
    destruct (proj1 (Hr q) eq_refl) as [Iq _]. destruct (String.eqb_spec (p_name q) key) as [En|]; [|exact IH]. exfalso. eapply K; eauto. }
  rewrite G. cbn [bind]. unfold all_propertydefs. rewrite (relatives_chain _ _ _ H). cbn [bind].
  destruct (find (fun q => String.eqb (p_name q) key) (flat_map props l)) as [q|] eqn:Q; [|reflexivity].
  exfalso. apply find_some in Q as [Iq Eq]. apply String.eqb_eq in Eq. eapply K; eauto.
Qed.
(** Saving an object refuses exactly if a required property of its class or an ancestor is absent,
    except ObjClass. *)
Theorem C62_required : forall m c l pids, chain m c l -> exists missing, missing_properties m c pids = Ok missing /\
  forall p, In p missing <-> In p (flat_map props l) /\ p_opt p = false /\ ~ In (p_pid p) pids /\ p_name p <> "ObjClass"%string.
Proof.
  intros m c l pids H. unfold missing_properties, all_propertydefs. rewrite (relatives_chain _ _ _ H). cbn [bind]. eexists. split; [reflexivity|].
  intros p. rewrite filter_In, !andb_true_iff, !negb_true_iff. split.
  - intros (I & ((A & B) & C)). split; auto. split; auto. split; [|apply String.eqb_neq; auto]. intros J. assert (existsb (Z.eqb (p_pid p)) pids = true) by (apply existsb_exists; exists (p_pid p); rewrite Z.eqb_refl; auto). congruence.
  - intros (I & A & B & C). split; auto. split; [split; auto|apply String.eqb_neq; auto]. apply not_true_is_false. intros Y. apply B. apply existsb_exists in Y as (x & I' & Y). apply Z.eqb_eq in Y. congruence.
Qed.
Print Assumptions C60_lookups_agree.
Print Assumptions C60_registered_stays.
Print Assumptions C60_dynamic_ids.
Print Assumptions C60_own_name.
Print Assumptions C60_new_class.
Print Assumptions C60_new_name_refuted.
Print Assumptions C60_same_name_refuted.
Print Assumptions C60_given_id_refuted.
Print Assumptions C62_by_id.
Print Assumptions C62_by_identifier.
Print Assumptions C62_by_name.
Print Assumptions C62_no_name.
Print Assumptions C62_required.
