(** C67: what opening a file for writing with the extensions adds, whatever the file holds. *)
From Verif Require Import Base BaseFacts TypesModel TimelineModel MetaModel MetaFacts MetaTables PropsMeta PropsBuiltin PropsMetaCopy PropsMetaMore OpenMetaModel OpenMetaFacts PropsOpenMeta PropsOpenRun PropsOpenCases PropsOpenReg.
From Coq Require Import ZArith List Bool String Lia.
Import ListNotations.
Open Scope Z_scope.

(** class objects keep the identifiers of their properties, names keep their class objects *)
Definition has (m : meta) (h : nat) (a : Z) : Prop := exists c, nth_error (m_heap m) h = Some c /\ zget (c_props c) a <> None.
Definition keeps (m m' : meta) : Prop :=
  (forall n h, sget (m_cname m) n = Some h -> sget (m_cname m') n = Some h) /\
  (forall h a, has m h a -> has m' h a) /\
  (forall h, nth_error (m_heap m) h <> None -> nth_error (m_heap m') h <> None).
Lemma keeps_refl : forall m, keeps m m.
Proof. intros m. repeat split; auto. Qed.
Lemma keeps_trans : forall a b c, keeps a b -> keeps b c -> keeps a c.
Proof. intros a b c (A1 & A2 & A3) (B1 & B2 & B3). repeat split; auto. Qed.

Lemma propertydef_keeps : forall m h r m', register_propertydef m h r = Ok m' -> keeps m m' /\ m_cname m' = m_cname m /\ has m' h (pr_auid r).
Proof.
  intros m h r m' E. unfold register_propertydef in E. destruct (nth_error (m_heap m) h) as [c|] eqn:Hh; [|discriminate].
  destruct (zget (c_props c) (pr_auid r)) as [q|] eqn:Q.
  { injection E as <-. split; [apply keeps_refl|]. split; [reflexivity|]. exists c. split; [exact Hh|congruence]. }
  destruct (match pr_pid r with Some pid => Ok (pid, m_pids m) | None => next_free_pid (m_pids m) end) as [[pid st]|]; [|discriminate]. cbn [bind fst snd] in E.
  destruct ((0 <=? pid) && (pid <=? 65535)) in E; [|discriminate].
  all: injection E as <-; unfold with_pids, with_class; split; [|split; [reflexivity|]].
  all: try (eexists; split; [mcbn; eapply upd_same; exact Hh|cbn [c_props]; rewrite zget_set, Z.eqb_refl; discriminate]).
  all: repeat split; mcbn; auto.
  all: try (intros k a (d & D & Da); destruct (Nat.eq_dec k h) as [->|N];
    [eexists; split; [mcbn; eapply upd_same; exact Hh|]; cbn [c_props]; rewrite zget_set; destruct (_ =? _); [discriminate|]; congruence
    |exists d; split; [mcbn; rewrite upd_other by exact N; exact D|exact Da]]).
  all: intros k D; destruct (Nat.eq_dec k h) as [->|N]; [erewrite upd_same by exact Hh; discriminate|rewrite upd_other by exact N; exact D].
Qed.
Lemma prop_keeps : forall m h r m', register_prop m h r = Ok m' -> keeps m m' /\ m_cname m' = m_cname m /\ has m' h (pr_auid r).
Proof.
  intros m h r m' E. unfold register_prop in E. destruct (match pr_pid r with None => _ | Some pid => _ end) as [[pid st]|]; [|discriminate]. cbn [bind fst snd] in E.
  apply propertydef_keeps in E as ((K1 & K2 & K3) & N & Hs). split; [|split; [exact N|exact Hs]]. repeat split; auto.
Qed.
Lemma props_keeps : forall l m h m', register_props m h l = Ok m' -> keeps m m' /\ m_cname m' = m_cname m /\ forall r, In r l -> has m' h (pr_auid r).
Proof.
  induction l as [|r l IH]; cbn; intros m h m' E; [injection E as <-; split; [apply keeps_refl|]; split; [reflexivity|intros r []]|].
  destruct (register_prop m h r) as [m1|] eqn:E1; [|discriminate]. cbn [bind] in E. apply prop_keeps in E1 as (K1 & N1 & H1). apply IH in E as (K2 & N2 & H2).
  split; [eapply keeps_trans; eauto|]. split; [congruence|]. intros x [<-|I]; [apply K2; exact H1|auto].
Qed.
Lemma classdef_keeps : forall m r m', register_classdef m r = Ok m' -> keeps m m' /\ exists h, sget (m_cname m') (cr_name r) = Some h /\ nth_error (m_heap m') h <> None /\ forall p, In p (cr_props r) -> has m' h (pr_auid p).
Proof.
  intros m r m' E. unfold register_classdef in E. destruct (class_place _ _ _ _ _) as [[m1 h]|] eqn:P; [|discriminate]. cbn [bind fst snd] in E.
  destruct (register_props m1 h (cr_props r)) as [m2|] eqn:E2; [|discriminate]. cbn [bind] in E. apply props_keeps in E2 as (K2 & N2 & H2).
  unfold enter_class in E. destruct (nth_error (m_heap m2) h) as [c|] eqn:Hc; [|discriminate]. injection E as <-.
  assert (A : keeps m m1 /\ m_cname m1 = m_cname m /\ forall h0, sget (m_cname m) (cr_name r) = Some h0 -> h0 = h).
  { unfold class_place in P. destruct (sget (m_cname m) (cr_name r)) as [h0|] eqn:S0.
    - injection P as <- <-. split; [apply keeps_refl|]. split; [reflexivity|]. intros x Q. congruence.
    - destruct (zget (m_cauid m) (cr_auid r)); [discriminate|]. injection P as <- <-. split; [|split; [reflexivity|discriminate]]. repeat split; mcbn; auto.
      + intros k a (d & D & Da). exists d. split; [mcbn; rewrite nth_error_app1; [exact D|apply nth_error_Some; congruence]|exact Da].
      + intros k D. rewrite nth_error_app1; [exact D|apply nth_error_Some; exact D]. }
  destruct A as (K1 & N1 & U). pose proof (keeps_trans _ _ _ K1 K2) as (A1 & A2 & A3). split.
  - split; [|split; [exact A2|exact A3]]. mcbn. intros n k Q. rewrite sget_set. destruct (String.eqb_spec (cr_name r) n) as [<-|N]; [rewrite (U _ Q); reflexivity|auto].
  - exists h. mcbn. rewrite sget_set, String.eqb_refl. split; [reflexivity|]. split; [congruence|exact H2].
Qed.
Lemma classes_keep : forall l m m', register_classes m l = Ok m' -> keeps m m' /\
  forall r, In r l -> exists h, sget (m_cname m') (cr_name r) = Some h /\ nth_error (m_heap m') h <> None /\ forall p, In p (cr_props r) -> has m' h (pr_auid p).
Proof.
  induction l as [|r l IH]; cbn; intros m m' E; [injection E as <-; split; [apply keeps_refl|intros r []]|].
  destruct (register_classdef m r) as [m1|] eqn:E1; [|discriminate]. cbn [bind] in E. apply classdef_keeps in E1 as (K1 & h & H1 & H2 & H3). apply IH in E as (K2 & R).
  split; [eapply keeps_trans; eauto|]. intros x [<-|I]; [|auto]. exists h. destruct K2 as (B1 & B2 & B3). repeat split; auto.
Qed.
Lemma aliases_heap : forall l m m', register_aliases m l = Ok m' -> m_heap m' = m_heap m /\
  (forall n, ~ In n (map fst l) -> sget (m_cname m') n = sget (m_cname m) n).
Proof.
  induction l as [|[a n] l IH]; cbn; intros m m' E; [injection E as <-; auto|]. unfold register_alias in E. cbn [fst snd] in E.
  destruct (sget (m_cname m) n) as [h|]; [|discriminate]. cbn [bind] in E. apply IH in E as (A & B). cbn [m_heap m_cname] in A, B. split; [exact A|].
  intros x X. rewrite B by auto. rewrite sget_set. destruct (String.eqb_spec a x) as [->|]; [destruct X; auto|reflexivity].
Qed.
(** The name of a class is the alias or not *)
Lemma alias_one : forall m a n m', register_aliases m [(a, n)] = Ok m' -> sget (m_cname m') a = sget (m_cname m) n /\ sget (m_cname m) n <> None.
Proof.
  cbn. unfold register_alias. cbn [fst snd]. intros m a n m' E. destruct (sget (m_cname m) n) as [h|]; [|discriminate]. cbn [bind] in E. injection E as <-. mcbn. rewrite sget_set, String.eqb_refl. split; [reflexivity|discriminate].
Qed.
Definition tkeeps (m m' : meta) : Prop := m_heap m' = m_heap m /\ m_cname m' = m_cname m /\ forall n, type_named m n <> None -> type_named m' n <> None.
Lemma type_keeps : forall m t m', register_type m t = Ok m' -> tkeeps m m' /\ type_named m' (t_name t) <> None.
Proof.
  assert (New : forall m t t', tkeeps m (enter_type (push_type m t') (t_name t) (List.length (m_theap m)) (t_auid t)) /\ type_named (enter_type (push_type m t') (t_name t) (List.length (m_theap m)) (t_auid t)) (t_name t) <> None).
  { intros m t t'. unfold tkeeps, type_named, enter_type, push_type. mcbn. split; [split; [reflexivity|]; split; [reflexivity|]|].
    - intros n. rewrite sget_set. destruct (String.eqb_spec (t_name t) n); [rewrite nth_error_app2, Nat.sub_diag by lia; discriminate|].
      destruct (sget (m_tname m) n) as [h|]; [|auto]. intros D. rewrite nth_error_app1; [exact D|apply nth_error_Some; exact D].
    - rewrite sget_set, String.eqb_refl, nth_error_app2, Nat.sub_diag by lia. discriminate. }
  assert (Old : forall m t h x y a, nth_error (m_theap m) h = Some x -> tkeeps m (enter_type (with_type m h y) (t_name t) h a) /\ type_named (enter_type (with_type m h y) (t_name t) h a) (t_name t) <> None).
  { intros m t h x y a X. unfold tkeeps, type_named, enter_type, with_type. mcbn. split; [split; [reflexivity|]; split; [reflexivity|]|].
    - intros n. rewrite sget_set. destruct (String.eqb_spec (t_name t) n); [intros _; erewrite upd_same by exact X; discriminate|].
      destruct (sget (m_tname m) n) as [k|]; [|auto]. intros D. destruct (Nat.eq_dec k h) as [->|N]; [erewrite upd_same by exact X; discriminate|rewrite upd_other by exact N; exact D].
    - rewrite sget_set, String.eqb_refl. erewrite upd_same by exact X. discriminate. }
  intros m t m' E. unfold register_type in E.
  assert (NewE : (do t' <- new_type m t ;; Ok (enter_type (push_type m t') (t_name t) (List.length (m_theap m)) (t_auid t))) = Ok m' -> tkeeps m m' /\ type_named m' (t_name t) <> None).
  { intros Q. destruct (new_type m t) as [t'|]; [|discriminate]. cbn [bind] in Q. injection Q as <-. apply New. }
  destruct (t_kind t); destruct (sget (m_tname m) (t_name t)) as [h|]; try (apply NewE; exact E).
  all: destruct (nth_error (m_theap m) h) as [[n a []]|] eqn:X; try discriminate; injection E as <-; eapply Old; exact X.
Qed.
Lemma types_keep : forall l m m', register_types m l = Ok m' -> tkeeps m m' /\ forall t, In t l -> type_named m' (t_name t) <> None.
Proof.
  induction l as [|t l IH]; cbn; intros m m' E; [injection E as <-; split; [repeat split; auto|intros t []]|].
  destruct (register_type m t) as [m1|] eqn:E1; [|discriminate]. cbn [bind] in E. apply type_keeps in E1 as ((A1 & A2 & A3) & A4). apply IH in E as ((B1 & B2 & B3) & B4).
  split; [split; [congruence|]; split; [congruence|]; auto|]. intros x [<-|I]; auto.
Qed.
Lemma ext_names : forall r, In r ext_classes -> ~ In (cr_name r) (map fst ext_aliases).
Proof.
  assert (H : forallb (fun r => negb (existsb (String.eqb (cr_name r)) (map fst ext_aliases))) ext_classes = true) by (vm_compute; reflexivity).
  intros r I J. rewrite forallb_forall in H. apply H in I. apply negb_true_iff in I. assert (X : existsb (String.eqb (cr_name r)) (map fst ext_aliases) = true) by (apply existsb_exists; exists (cr_name r); split; [exact J|apply String.eqb_refl]). congruence.
Qed.

Lemma gen_registered : forall ec a n et m m2, ~ In n [a] -> (forall r, In r ec -> ~ In (cr_name r) [a]) -> In n (map cr_name ec) ->
  (do m <- register_classes m ec ;; do m <- register_aliases m [(a, n)] ;; register_types m et) = Ok m2 ->
  (forall r, In r ec -> exists c, class_named m2 (cr_name r) = Some c /\ forall p, In p (cr_props r) -> exists q, zget (c_props c) (pr_auid p) = Some q) /\
  (exists c, class_named m2 a = Some c /\ class_named m2 n = Some c) /\
  (forall t, In t et -> exists t', type_named m2 (t_name t) = Some t').
Proof.
  intros ec a n et m m2 Na Nr Nn E. apply gen_split in E as (m3 & m4 & E3 & E4 & E5). apply classes_keep in E3 as (_ & C). pose proof (alias_one _ _ _ _ E4) as (Al & Al2).
  apply aliases_heap in E4 as (H4 & N4). apply types_keep in E5 as ((H5 & N5 & _) & T5).
  assert (G : forall r, In r ec -> exists c, class_named m2 (cr_name r) = Some c /\ forall p, In p (cr_props r) -> exists q, zget (c_props c) (pr_auid p) = Some q).
  { intros r I. destruct (C r I) as (h & Q1 & Q2 & Q3). unfold class_named. rewrite H5, H4, N5, (N4 _ (Nr r I)), Q1. destruct (nth_error (m_heap m3) h) as [c|] eqn:Hc; [|congruence]. exists c. split; [reflexivity|].
    intros p J. destruct (Q3 p J) as (d & D & Dp). assert (d = c) as -> by congruence. destruct (zget (c_props c) (pr_auid p)) as [q|]; [eauto|congruence]. }
  split; [exact G|]. split.
  - apply in_map_iff in Nn as (r & <- & I). destruct (G r I) as (c & Hc & _). exists c. split; [|exact Hc]. revert Hc. unfold class_named. rewrite N5, Al, (N4 _ Na). auto.
  - intros t I. apply T5 in I. destruct (type_named m2 (t_name t)) as [t'|]; [eauto|congruence].
Qed.

(** Whatever definitions the file has: if it opens for writing with the extensions (file.py:216, 221-222, metadict.py:386-396), every class
    of the extensions is found under its name and has each property of the extensions under its identifier, the alias leads to the class
    it stands for, and every type of the extensions is found under its name. *)
Theorem C67_registered : forall fc ft m2, open_dictionary true true fc ft = Ok m2 ->
  (forall r, In r ext_classes -> exists c, class_named m2 (cr_name r) = Some c /\ forall p, In p (cr_props r) -> exists q, zget (c_props c) (pr_auid p) = Some q) /\
  (exists c, class_named m2 "Avid_MC_Mob_Reference" = Some c /\ class_named m2 "Avid MC Mob Reference" = Some c) /\
  (forall t, In t ext_types -> exists t', type_named m2 (t_name t) = Some t').
Proof.
  intros fc ft m2 E. apply open_split in E as (m & m' & _ & _ & E). revert E. apply (gen_registered ext_classes "Avid_MC_Mob_Reference" "Avid MC Mob Reference" ext_types m' m2).
  - intros [Q|[]]. discriminate Q.
  - exact ext_names.
  - assert (H : existsb (String.eqb "Avid MC Mob Reference") (map cr_name ext_classes) = true) by (vm_compute; reflexivity). apply existsb_exists in H as (x & I & Q). apply String.eqb_eq in Q. subst x. exact I.
Qed.
Print Assumptions C67_registered.

(** a file with an own class opens so ([C67_extensions_case]), and the extensions have properties *)
Example C67_registered_case : existsb (fun r => String.eqb (cr_name r) "EdgeCode" && (1 <? List.length (cr_props r))%nat) (base_classes ++ ext_classes) = true /\ (10 <? List.length ext_classes)%nat = true /\ (10 <? List.length ext_types)%nat = true.
Proof. vm_compute. auto. Qed.
