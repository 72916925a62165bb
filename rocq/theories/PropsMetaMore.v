(** C60, C61 continued: what is stored in the file, aliases, registered types and merged enumerations. *)
From Verif Require Import Base BaseFacts TypesModel TypesFacts TimelineModel MetaModel MetaFacts MetaTables PropsMeta MetaCopyFacts PropsBuiltin PropsMetaCopy.
From Coq Require Import ZArith List Bool String Lia.
Import ListNotations.
Open Scope Z_scope.

(** ** Induction over copies *)

Lemma each_keeps : forall (P : meta -> Prop) A (f : meta -> A -> result meta) l, (forall x m m', P m -> f m x = Ok m' -> P m') ->
  forall m m', P m -> each f l m = Ok m' -> P m'.
Proof.
  intros P A f l St. induction l as [|x l IH]; cbn [each]; intros m m' H E; [injection E as <-; auto|].
  destruct (f m x) as [m1|] eqn:F; [|discriminate]. cbn [bind] in E. eauto.
Qed.
Lemma external_keeps : forall P : meta -> Prop,
  (forall m r m', P m -> register_classdef m r = Ok m' -> P m') ->
  (forall m h r m', P m -> static_row r -> register_propertydef m h r = Ok m' -> P m') ->
  (forall m t, P m -> P (enter_copy m t)) ->
  (forall m t m', P m -> merge_elements m t = Ok m' -> P m') ->
  forall fuel src m m', P m -> (forall t, external_type fuel src m t = Ok m' -> P m') /\ (forall c, external_class fuel src m c = Ok m' -> P m').
Proof.
  intros P Hc Hp Ht He. induction fuel as [|fuel IH]; intros src m m' H; [split; discriminate|].
  assert (IHt : forall a t b, P a -> external_type fuel src a t = Ok b -> P b) by (intros a t b Pa E; destruct (IH src a b Pa) as [X _]; eauto).
  assert (IHc : forall a c b, P a -> external_class fuel src a c = Ok b -> P b) by (intros a c b Pa E; destruct (IH src a b Pa) as [_ X]; eauto).
  split.
  - intros t E. cbn [external_type] in E. destruct (type_of m (t_auid t)).
    + cbn [bind] in E. eauto.
    + match type of E with bind (bind ?x _) _ = _ => destruct x as [m1|] eqn:E1; [|discriminate] end. cbn [bind] in E.
      destruct (copy_typedef fuel src m1 t) as [c|]; [|discriminate]. cbn [bind] in E. eapply He; [|exact E]. apply Ht.
      assert (El : forall el, match type_of src el with None => Ok m | Some e => external_type fuel src m e end = Ok m1 -> P m1).
      { intros el X. destruct (type_of src el); [eauto|injection X as <-; auto]. }
      assert (Cl : forall c0, match class_of src c0 with None => Err GenericError | Some c1 => external_class fuel src m c1 end = Ok m1 -> P m1).
      { intros c0 X. destruct (class_of src c0); [eauto|discriminate]. }
      destruct (t_kind t); eauto; try (injection E1 as <-; auto).
      eapply each_keeps; [|exact H|exact E1]. intros f a b Pa X. cbn in X. destruct (type_of src (snd f)); [eauto|injection X as <-; auto].
  - intros c E. cbn [external_class] in E. destruct (relatives src c) as [l|]; [|discriminate]. cbn [bind] in E.
    eapply each_keeps; [|exact H|exact E]. intros k a b Pa X. cbv beta in X.
    match type of X with bind ?x _ = _ => destruct x as [[a1 h]|] eqn:E1; [|discriminate] end. cbn [bind fst snd] in X.
    assert (P1 : P a1).
    { destruct (zget (m_cauid a) (c_auid k)); [injection E1 as <- <-; auto|]. destruct (parent src k) as [p|]; [|discriminate].
      destruct (register_classdef a _) as [a2|] eqn:E2; [|discriminate]. cbn [bind] in E1. destruct (sget (m_cname a2) (c_name k)); [|discriminate]. injection E1 as <- <-. eauto. }
    eapply each_keeps; [|exact P1|exact X]. intros p d d' Pd Y. cbv beta in Y. destruct (type_of src (p_type p)) as [t|]; [|discriminate].
    destruct (external_type fuel src d t) as [d1|] eqn:E2; [|discriminate]. cbn [bind] in Y. eapply Hp; [eapply IHt; eauto| |exact Y].
    unfold static_row. cbn [pr_pid]. destruct (Z.leb_spec 32768 (p_pid p)); auto.
Qed.

(** ** What is stored *)

Definition classes_stored (m : meta) : Prop :=
  (forall h c, nth_error (m_heap m) h = Some c -> (In (c_auid c) (m_cset m) <-> c_name c <> "Root"%string)) /\
  (forall a, In a (m_cset m) -> exists h c, nth_error (m_heap m) h = Some c /\ c_auid c = a) /\ NoDup (m_cset m).
Definition types_stored (m : meta) : Prop :=
  (forall a h, zget (m_tauid m) a = Some h -> exists t, nth_error (m_theap m) h = Some t /\ t_auid t = a) /\
  (forall a, In a (m_tset m) <-> zget (m_tauid m) a <> None) /\ NoDup (m_tset m) /\
  (forall n h, sget (m_tname m) n = Some h -> exists t, nth_error (m_theap m) h = Some t).
Definition stored (m : meta) : Prop := MInv m /\ classes_stored m /\ types_stored m.

Lemma add_key_in : forall l k x, In x (add_key l k) <-> In x l \/ x = k.
Proof.
  intros l k x. unfold add_key. destruct (existsb (Z.eqb k) l) eqn:E; [|rewrite in_app_iff; cbn; intuition].
  apply existsb_exists in E as (y & I & E). apply Z.eqb_eq in E. subst y. intuition congruence.
Qed.
Lemma add_key_NoDup : forall l k, NoDup l -> NoDup (add_key l k).
Proof.
  intros l k N. unfold add_key. destruct (existsb (Z.eqb k) l) eqn:E; auto. apply NoDup_snoc; auto.
  intros I. assert (existsb (Z.eqb k) l = true) by (apply existsb_exists; exists k; rewrite Z.eqb_refl; auto). congruence.
Qed.
Lemma classes_stored_skel : forall m m', skel m m' -> classes_stored m -> classes_stored m'.
Proof.
  intros m m' S (A & B & N). pose proof S as (Q1&Q2&Q3&Q4&Q5&Q6&Q7&Q8&Q9&Q10). unfold classes_stored. rewrite Q3. split; [|split; [|auto]].
  - intros h c X. apply (skel_back _ _ _ _ S) in X as (x & X & (H1 & H2 & _)). rewrite H1, H2. eauto.
  - intros a I. apply B in I as (h & c & X & E). apply Q10 in X as (c' & X & (_ & H & _) & _). exists h, c'. split; [auto|congruence].
Qed.
Lemma register_classdef_stored : forall m r m', MInv m -> classes_stored m -> register_classdef m r = Ok m' -> classes_stored m'.
Proof.
  intros m r m' M (SA & SB & SN) E0. pose proof (register_classdef_ok _ _ _ M E0) as (M' & G & _). revert E0.
  unfold register_classdef. destruct (class_place _ _ _ _ _) as [[m1 h]|] eqn:E1; [|discriminate]. cbn [bind fst snd].
  destruct (register_props m1 h (cr_props r)) as [m2|] eqn:E2; [|discriminate]. cbn [bind]. unfold enter_class.
  destruct (nth_error (m_heap m2) h) as [c2|] eqn:E3; [|discriminate]. intros E. injection E as <-.
  pose proof M as (P & A & B & C). unfold class_place in E1.
  assert (Hd : skel m1 m2 /\ m_cset m1 = m_cset m /\ (forall k x, nth_error (m_heap m) k = Some x -> nth_error (m_heap m1) k = Some x) /\
    forall k x, nth_error (m_heap m1) k = Some x -> k = h \/ nth_error (m_heap m) k = Some x).
  { destruct (sget (m_cname m) (cr_name r)) as [h0|] eqn:N.
    - injection E1 as <- <-. destruct (register_props_ok _ _ _ _ P E2) as [P2 S2]. auto.
    - destruct (zget (m_cauid m) (cr_auid r)) as [h0|] eqn:N2; [discriminate|]. injection E1 as <- <-.
      match type of E2 with register_props ?x _ _ = _ => set (m1 := x) in * end.
      assert (P1 : PInv m1).
      { destruct P as (Pa & Pb & Pc).
        assert (Hnp : forall k x p, nth_error (m_heap m1) k = Some x -> In p (props x) -> nth_error (m_heap m) k = Some x).
        { intros k x p X I. apply nth_app_new in X as [X|[_ ->]]; auto. destruct I. }
        split; [|split].
        - intros k x X. apply nth_app_new in X as [X|[_ ->]]; [eauto|]. unfold cls_ok, props, zget. cbn. repeat split; try constructor; try discriminate; tauto.
        - intros k x p X I D. pose proof (Hnp _ _ _ X I) as X'. exact (Pb _ _ _ X' I D).
        - intros k1 x1 p1 k2 x2 p2 X1 I1 X2 I2. pose proof (Hnp _ _ _ X1 I1). pose proof (Hnp _ _ _ X2 I2). eapply Pc; eauto. }
      destruct (register_props_ok _ _ _ _ P1 E2) as [P2 S2]. split; auto. split; [reflexivity|]. split.
      + intros k x X. apply nth_app_old. auto.
      + intros k x X. apply nth_app_new in X as [X|[-> _]]; auto. }
  destruct Hd as (S2 & Q & Hold & Hnew). pose proof S2 as (Q1&Q2&Q3&Q4&Q5&Q6&Q7&Q8&Q9&Q10). destruct M' as (_ & _ & _ & C'). cbn [m_heap m_cauid] in C'.
  assert (Cold : forall k x', nth_error (m_heap m2) k = Some x' -> k = h \/ (In (c_auid x') (m_cset m) <-> c_name x' <> "Root"%string)).
  { intros k x' X. destruct (skel_back _ _ _ _ S2 X) as (x & Y & (H1 & H2 & _)). apply Hnew in Y as [->|Y]; [auto|]. right. rewrite H1, H2. eauto. }
  unfold classes_stored. mcbn. rewrite Q3, Q. destruct (String.eqb_spec (c_name c2) "Root") as [R|R].
  - split; [|split; [|auto]].
    + intros k x' X. destruct (Nat.eq_dec k h) as [->|Nk]; [|destruct (Cold _ _ X); [congruence|auto]]. assert (x' = c2) by congruence. subst x'. split; [|congruence].
      intros I. pose proof I as I0. apply SB in I as (h1 & c1 & X1 & Ea). assert (R1 : c_name c1 <> "Root"%string) by (apply (SA _ _ X1); congruence).
      apply Hold in X1. apply Q10 in X1 as (c1' & X1 & (Hn & Ha & _) & _).
      assert (h1 = h). { pose proof (C' _ _ X1) as Z1. pose proof (C' _ _ X) as Z2. rewrite Ha, Ea in Z1. congruence. } subst h1. assert (c1' = c2) by congruence. subst c1'. congruence.
    + intros a I. apply SB in I as (k & c & X & Ea). apply Hold in X. apply Q10 in X as (c' & X & (_ & H & _) & _). exists k, c'. split; [auto|congruence].
  - split; [|split; [|apply add_key_NoDup; auto]].
    + intros k x' X. rewrite add_key_in. destruct (Nat.eq_dec k h) as [->|Nk]; [assert (x' = c2) by congruence; subst x'; tauto|].
      destruct (Cold _ _ X) as [K|K]; [congruence|]. rewrite <- K. split; [intros [I|I]; auto|auto]. exfalso. apply Nk.
      pose proof (C' _ _ X) as Z1. pose proof (C' _ _ E3) as Z2. congruence.
    + intros a I. apply add_key_in in I as [I| ->]; [|eauto]. apply SB in I as (k & c & X & Ea). apply Hold in X. apply Q10 in X as (c' & X & (_ & H & _) & _). exists k, c'. split; [auto|congruence].
Qed.

Lemma types_stored_same : forall m m', m_theap m' = m_theap m -> m_tname m' = m_tname m -> m_tauid m' = m_tauid m -> m_tset m' = m_tset m -> types_stored m -> types_stored m'.
Proof. unfold types_stored. intros m m' -> -> -> ->. auto. Qed.
Lemma enter_stored : forall m n h t, types_stored m -> nth_error (m_theap m) h = Some t -> types_stored (enter_type m n h (t_auid t)).
Proof.
  intros m n h t (A & B & C & D) X. unfold types_stored, enter_type. mcbn. split; [|split; [|split]].
  - intros a k. rewrite zget_set. destruct (Z.eqb_spec (t_auid t) a) as [<-|]; [|apply A]. intros E. injection E as <-. eauto.
  - intros a. rewrite add_key_in, zget_set, B. destruct (Z.eqb_spec (t_auid t) a) as [<-|]; [|intuition congruence]. split; [discriminate|auto].
  - apply add_key_NoDup; auto.
  - intros k j. rewrite sget_set. destruct (String.eqb n k); [|apply D]. intros E. injection E as <-. eauto.
Qed.
Lemma push_stored : forall m t, types_stored m -> types_stored (push_type m t).
Proof.
  intros m t (A & B & C & D). unfold types_stored, push_type. mcbn. split; [|split; [auto|split; [auto|]]].
  - intros a h E. apply A in E as (x & X & E). exists x. split; auto. apply nth_app_old. auto.
  - intros n h E. apply D in E as (x & X). exists x. apply nth_app_old. auto.
Qed.
Lemma with_type_stored : forall m h t t', types_stored m -> nth_error (m_theap m) h = Some t -> t_auid t' = t_auid t -> types_stored (with_type m h t').
Proof.
  intros m h t t' (A & B & C & D) X Ea. unfold types_stored, with_type. mcbn. split; [|split; [auto|split; [auto|]]].
  - intros a k E. apply A in E as (x & Y & E). destruct (Nat.eq_dec k h) as [->|N]; [|exists x; rewrite upd_other; auto].
    exists t'. rewrite (upd_same _ _ _ _ _ X). split; auto. congruence.
  - intros n k E. apply D in E as (x & Y). destruct (Nat.eq_dec k h) as [->|N]; [exists t'; eapply upd_same; eauto|exists x; rewrite upd_other; auto].
Qed.
Lemma new_type_auid : forall m t t', new_type m t = Ok t' -> t_auid t' = t_auid t /\ t_name t' = t_name t.
Proof.
  intros m t t' E. unfold new_type in E. destruct (t_kind t); try (injection E as <-; auto). destruct (char_size_pid m); [|discriminate]. injection E as <-. auto.
Qed.
Lemma push_enter : forall m n t, types_stored m -> types_stored (enter_type (push_type m t) n (List.length (m_theap m)) (t_auid t)).
Proof. intros m n t H. apply enter_stored; [apply push_stored; auto|]. unfold push_type. mcbn. rewrite nth_error_app2, Nat.sub_diag; auto. Qed.
Lemma register_type_stored : forall m t m', types_stored m -> register_type m t = Ok m' -> types_stored m'.
Proof.
  intros m t m' H E. unfold register_type in E.
  assert (Q : (do t' <- new_type m t ;; Ok (enter_type (push_type m t') (t_name t) (List.length (m_theap m)) (t_auid t))) = Ok m' -> types_stored m').
  { destruct (new_type m t) as [t'|] eqn:N; [|discriminate]. cbn [bind]. intros X. injection X as <-. apply new_type_auid in N as [N _]. rewrite <- N. apply push_enter; auto. }
  assert (W : forall h n a k k', nth_error (m_theap m) h = Some (TDef n a k) -> types_stored (enter_type (with_type m h (TDef n a k')) (t_name t) h a)).
  { intros h n a k k' X. apply (enter_stored _ _ _ (TDef n a k')); [eapply with_type_stored; eauto|]. unfold with_type. mcbn. eapply upd_same; eauto. }
  destruct (t_kind t) eqn:K; auto; destruct (sget (m_tname m) (t_name t)) as [h|]; auto;
  (destruct (nth_error (m_theap m) h) as [[n a k]|] eqn:X; [|discriminate]); destruct k; try discriminate; injection E as <-; eapply W; eauto.
Qed.
Lemma merge_stored : forall m t m', stored m -> merge_elements m t = Ok m' -> stored m'.
Proof.
  intros m t m' H E. unfold merge_elements in E.
  assert (W : forall h n a k k', nth_error (m_theap m) h = Some (TDef n a k) -> stored (with_type m h (TDef n a k'))).
  { intros h n a k k' X. destruct H as (M & C & T). split; [|split; [exact C|eapply with_type_stored; eauto]]. eapply same_classes_ok; [exact M|]. repeat split. }
  destruct (t_kind t); try (injection E as <-; auto);
  (destruct (zget (m_tauid m) (t_auid t)) as [h|]; [|discriminate]); destruct (nth_error (m_theap m) h) as [[n a k]|] eqn:X; try discriminate; destruct k; try discriminate; injection E as <-; eapply W; eauto.
Qed.
Lemma register_classdef_keeps_stored : forall m r m', stored m -> register_classdef m r = Ok m' -> stored m'.
Proof.
  intros m r m' (M & C & T) E. pose proof (register_classdef_stored _ _ _ M C E) as C'. apply register_classdef_ok in E as (M' & _ & _ & _ & T1 & T2 & T3 & T4); auto.
  split; auto. split; auto. eapply types_stored_same; eauto.
Qed.
Lemma register_propertydef_keeps_stored : forall m h r m', stored m -> static_row r -> register_propertydef m h r = Ok m' -> stored m'.
Proof.
  intros m h r m' (M & C & T) L E. pose proof M as (P & _). apply register_propertydef_ok in E as [P' S]; auto.
  split; [eapply skel_MInv; eauto|]. split; [eapply classes_stored_skel; eauto|]. destruct S as (Q1&Q2&Q3&Q4&Q5&Q6&Q7&_). eapply types_stored_same; eauto.
Qed.
Lemma stored_all : forall m, reach m -> stored m.
Proof.
  assert (X : forall fuel src m m', stored m -> (forall t, external_type fuel src m t = Ok m' -> stored m') /\ (forall c, external_class fuel src m c = Ok m' -> stored m')).
  { apply external_keeps.
    - apply register_classdef_keeps_stored.
    - apply register_propertydef_keeps_stored.
    - intros m t (M & C & T). split; [|split; [exact C|apply push_enter; exact T]]. eapply same_classes_ok; [exact M|]. repeat split.
    - apply merge_stored. }
  induction 1 as [|m o m' H IH L E|m fuel src c m' H IH I E|m fuel src t m' H IH E].
  - split; [apply MInv0|]. split; [|unfold types_stored, meta0, zget, sget; cbn]; [split; [intros [|h] c; discriminate|split; [intros a []|constructor]]|].
    split; [discriminate|]. split; [intros a; split; [intros []|congruence]|]. split; [constructor|discriminate].
  - destruct o as [r|a n|a r|t]; cbn [mstep] in E.
    + eapply register_classdef_keeps_stored; eauto.
    + destruct IH as (M & C & T). pose proof (register_alias_ok _ _ _ M E) as [M' _]. unfold register_alias in E. destruct (sget (m_cname m) _); [|discriminate]. injection E as <-. split; auto.
    + destruct (zget (m_cauid m) a) as [h|]; [|discriminate]. eapply register_propertydef_keeps_stored; eauto.
    + destruct IH as (M & C & T). pose proof (register_type_stored _ _ _ T E) as T'. apply register_type_same in E. destruct (same_classes_ok _ _ M E) as [M' _].
      split; auto. split; auto. destruct E as (E1 & _ & _ & E4 & _). unfold classes_stored. rewrite E1, E4. exact C.
  - destruct (X fuel src m m' IH) as [_ Y]. eauto.
  - destruct (X fuel src m m' IH) as [Y _]. eauto.
Qed.

(** In every dictionary reached by registrations and copies, the classes stored in the file are the known
    classes but Root, the types stored are the known types, each once, and a type found by an identifier has
    that identifier. *)
Theorem C60_stored : forall m, reach m ->
  (forall a, In a (m_cset m) <-> exists c, class_of m a = Some c /\ c_name c <> "Root"%string) /\ NoDup (m_cset m) /\
  (forall a, In a (m_tset m) <-> exists t, type_of m a = Some t) /\ NoDup (m_tset m) /\
  (forall a t, type_of m a = Some t -> t_auid t = a).
Proof.
  intros m R. destruct (stored_all _ R) as (M & (A & B & N) & (T1 & T2 & T3 & T4)). pose proof M as (_ & _ & _ & C).
  split; [|split; [auto|split; [|split; [auto|]]]].
  - intros a. split.
    + intros I. pose proof I as I'. apply B in I as (h & c & X & <-). exists c. unfold class_of. rewrite (C _ _ X). split; auto. apply (A _ _ X). auto.
    + intros (c & X & Y). apply class_of_heap in X as (h & X & _ & <-); auto. apply (A _ _ X). auto.
  - intros a. rewrite T2. unfold type_of. split.
    + intros I. destruct (zget (m_tauid m) a) as [h|] eqn:Z; [|congruence]. apply T1 in Z as (t & X & _). eauto.
    + intros (t & X). destruct (zget (m_tauid m) a); congruence.
  - intros a t. unfold type_of. destruct (zget (m_tauid m) a) as [h|] eqn:Z; [|discriminate]. apply T1 in Z as (t' & X & E). congruence.
Qed.

(** ** Aliases and types *)

(** An alias is another name of the class; the other names, the identifiers and what is stored stay. *)
Theorem C60_alias : forall m alias name c, class_named m name = Some c -> exists m', register_alias m (alias, name) = Ok m' /\
  class_named m' alias = Some c /\ (forall n, n <> alias -> class_named m' n = class_named m n) /\ (forall a, class_of m' a = class_of m a) /\
  m_cset m' = m_cset m /\ m_tset m' = m_tset m /\ m_pids m' = m_pids m /\ (forall a, type_of m' a = type_of m a) /\ (forall n, type_named m' n = type_named m n).
Proof.
  intros m alias name c H. unfold register_alias, class_named in *. cbn [fst snd]. destruct (sget (m_cname m) name) as [h|]; [|discriminate]. eexists. split; [reflexivity|]. mcbn.
  split; [rewrite sget_set, String.eqb_refl; auto|]. split; [intros n N; rewrite sget_set; destruct (String.eqb_spec alias n); [congruence|auto]|]. repeat split.
Qed.
(** An alias of an unknown class is refused. *)
Theorem C60_alias_unknown : forall m alias name, sget (m_cname m) name = None -> register_alias m (alias, name) = Err KeyError.
Proof. intros m alias name H. unfold register_alias. cbn [fst snd]. rewrite H. reflexivity. Qed.

(** A type that is no enumeration with a known name is then found by its identifier and by its name; all
    others are found as before. *)
Theorem C60_new_type : forall m t m', reach m -> (type_named m (t_name t) = None \/ match t_kind t with KExt _ | KEnum _ _ => False | _ => True end) ->
  register_type m t = Ok m' -> exists t', type_of m' (t_auid t) = Some t' /\ type_named m' (t_name t) = Some t' /\
    t_name t' = t_name t /\ t_auid t' = t_auid t /\ (match t_kind t with KGenChar n _ => exists pid, t_kind t' = KGenChar n pid | k => t_kind t' = k end) /\
    (forall a, a <> t_auid t -> type_of m' a = type_of m a) /\ (forall n, n <> t_name t -> type_named m' n = type_named m n).
Proof.
  intros m t m' R U E. destruct (stored_all _ R) as (_ & _ & (T1 & _ & _ & T4)).
  assert (E' : (do t' <- new_type m t ;; Ok (enter_type (push_type m t') (t_name t) (List.length (m_theap m)) (t_auid t))) = Ok m').
  { unfold register_type in E. unfold type_named in U. destruct (sget (m_tname m) (t_name t)) as [h|] eqn:S; [|destruct (t_kind t); exact E].
    apply T4 in S as (x & S). destruct U as [U|U]; [congruence|]. destruct (t_kind t); try tauto; exact E. }
  destruct (new_type m t) as [t'|] eqn:N; [|discriminate]. cbn [bind] in E'. injection E' as <-. exists t'. pose proof (new_type_auid _ _ _ N) as [Na Nn].
  assert (L : nth_error (m_theap m ++ [t']) (List.length (m_theap m)) = Some t') by (rewrite nth_error_app2, Nat.sub_diag; auto).
  assert (O : forall h x, nth_error (m_theap m) h = Some x -> nth_error (m_theap m ++ [t']) h = nth_error (m_theap m) h).
  { intros h x X. rewrite X. apply nth_app_old. auto. }
  unfold type_of, type_named, enter_type, push_type. mcbn. rewrite zget_set, Z.eqb_refl, sget_set, String.eqb_refl.
  split; [auto|]. split; [auto|]. split; [auto|]. split; [auto|]. split; [|split].
  - unfold new_type in N. destruct (t_kind t) eqn:K; try (injection N as <-; auto). destruct (char_size_pid m); [|discriminate]. injection N as <-. cbn. eauto.
  - intros a D. rewrite zget_set. destruct (Z.eqb_spec (t_auid t) a); [congruence|]. destruct (zget (m_tauid m) a) as [h|] eqn:Z; [|auto]. apply T1 in Z as (x & X & _). eauto.
  - intros n D. rewrite sget_set. destruct (String.eqb_spec (t_name t) n); [congruence|]. destruct (sget (m_tname m) n) as [h|] eqn:Z; [|auto]. apply T4 in Z as (x & X). eauto.
Qed.

(** [l'] are the elements [l] with those of [new] that clash with nothing earlier *)
Inductive extended : list (Z * string) -> list (Z * string) -> list (Z * string) -> Prop :=
| ext_done : forall l l', (forall x, In x l' <-> In x l) -> extended l [] l'
| ext_clash : forall l x new l' y, In y l -> fst y = fst x \/ snd y = snd x -> extended l new l' -> extended l (x :: new) l'
| ext_add : forall l x new l', (forall y, In y l -> fst y <> fst x /\ snd y <> snd x) -> extended (x :: l) new l' -> extended l (x :: new) l'.
Lemma extended_eqv : forall l new l', extended l new l' -> forall k, (forall x, In x k <-> In x l) -> extended k new l'.
Proof.
  induction 1 as [l l' H|l x new l' y I H E IH|l x new l' H E IH]; intros k Q.
  - constructor. intros x. rewrite Q. auto.
  - eapply ext_clash; [apply Q; eauto|eauto|auto].
  - apply ext_add; [intros y I; apply H, Q; auto|]. apply IH. intros z. cbn. rewrite Q. tauto.
Qed.
Lemma insert_in : forall x l y, In y (insert_val x l) <-> y = x \/ In y l.
Proof. intros x l y. induction l as [|z l IH]; cbn; [intuition|]. destruct (fst x <? fst z); cbn; [intuition|]. rewrite IH. intuition. Qed.
Lemma sort_in : forall l y, In y (sort_vals l) <-> In y l.
Proof. induction l as [|x l IH]; cbn; intros y; [tauto|]. rewrite insert_in, IH. intuition. Qed.
Lemma add_elements_extended : forall b new l, extended l new (add_elements b l new).
Proof.
  intros b. unfold add_elements. induction new as [|x new IH]; intros l; cbn [fold_left]; [constructor; tauto|].
  specialize (IH (add_element b l x)). unfold add_element in *. destruct (existsb (fun y => (fst y =? fst x) || String.eqb (snd y) (snd x)) l) eqn:E.
  - apply existsb_exists in E as (y & I & E). apply (ext_clash _ _ _ _ y); auto. apply orb_true_iff in E as [E|E]; [left; apply Z.eqb_eq; auto|right; apply String.eqb_eq; auto].
  - apply ext_add.
    + intros y I. split; intros Q; [|]; (assert (T : existsb (fun y => (fst y =? fst x) || String.eqb (snd y) (snd x)) l = true); [apply existsb_exists; exists y; split; [auto|]|congruence]).
      * rewrite Q, Z.eqb_refl. reflexivity.
      * rewrite Q, String.eqb_refl. apply orb_true_r.
    + eapply extended_eqv; [exact IH|]. intros y. rewrite in_app_iff. cbn. destruct b; [rewrite sort_in|]; intuition.
Qed.
(** Registering an enumeration whose name is known adds the elements that clash with none: the type keeps
    its name, identifier and element type. *)
Theorem C60_known_enum : forall m t m' o el new, type_named m (t_name t) = Some o -> t_kind t = KEnum el new -> register_type m t = Ok m' ->
  exists e old l, t_kind o = KEnum e old /\ type_named m' (t_name t) = Some (TDef (t_name o) (t_auid o) (KEnum e l)) /\ type_of m' (t_auid o) = type_named m' (t_name t) /\ extended old new l.
Proof.
  intros m t m' o el new O K E. unfold register_type in E. rewrite K in E. unfold type_named in O. destruct (sget (m_tname m) (t_name t)) as [h|]; [|discriminate]. rewrite O in E.
  destruct o as [n a [| e old | | | | | | | | | | | | | |]]; try discriminate. injection E as <-. exists e, old, (add_elements true old new). split; [reflexivity|].
  unfold type_named, type_of, enter_type, with_type. mcbn. cbn [t_name t_auid]. rewrite zget_set, Z.eqb_refl, sget_set, String.eqb_refl, (upd_same _ _ _ _ _ O).
  split; [reflexivity|]. split; [reflexivity|]. apply add_elements_extended.
Qed.
Theorem C60_known_ext_enum : forall m t m' o new, type_named m (t_name t) = Some o -> t_kind t = KExt new -> register_type m t = Ok m' ->
  exists old l, t_kind o = KExt old /\ type_named m' (t_name t) = Some (TDef (t_name o) (t_auid o) (KExt l)) /\ type_of m' (t_auid o) = type_named m' (t_name t) /\ extended old new l.
Proof.
  intros m t m' o new O K E. unfold register_type in E. rewrite K in E. unfold type_named in O. destruct (sget (m_tname m) (t_name t)) as [h|]; [|discriminate]. rewrite O in E.
  destruct o as [n a [| | | | | | | | | old | | | | | |]]; try discriminate. injection E as <-. exists old, (add_elements false old new). split; [reflexivity|].
  unfold type_named, type_of, enter_type, with_type. mcbn. cbn [t_name t_auid]. rewrite zget_set, Z.eqb_refl, sget_set, String.eqb_refl, (upd_same _ _ _ _ _ O).
  split; [reflexivity|]. split; [reflexivity|]. apply add_elements_extended.
Qed.
(** Copying an enumeration the file knows brings the elements it lacks. *)
Theorem C61_enum_merged : forall fuel src dst t dst' o new, external_type fuel src dst t = Ok dst' -> type_of dst (t_auid t) = Some o ->
  (t_kind t = KExt new \/ exists el, t_kind t = KEnum el new) ->
  exists o' old l, type_of dst' (t_auid t) = Some o' /\ t_name o' = t_name o /\ t_auid o' = t_auid o /\ extended old new l /\
    ((t_kind o = KExt old /\ t_kind o' = KExt l) \/ exists e, t_kind o = KEnum e old /\ t_kind o' = KEnum e l).
Proof.
  intros fuel src dst t dst' o new E O K. destruct fuel as [|fuel]; [discriminate|]. cbn [external_type] in E. rewrite O in E. cbn [bind] in E. unfold merge_elements in E.
  unfold type_of in O. destruct (zget (m_tauid dst) (t_auid t)) as [h|] eqn:Z; [|discriminate]. rewrite O in E.
  assert (W : forall o', type_of (with_type dst h o') (t_auid t) = Some o') by (intros o'; unfold type_of, with_type; mcbn; rewrite Z; eapply upd_same; eauto).
  destruct o as [n a k]. destruct K as [K|(el & K)]; rewrite K in E; destruct k; try discriminate; injection E as <-; eexists; eexists; eexists;
  (split; [apply W|]); cbn [t_name t_auid t_kind]; (split; [reflexivity|]); (split; [reflexivity|]); (split; [apply add_elements_extended|]); eauto.
Qed.


(** Registering a property again changes nothing. *)
Theorem C60_again : forall m a c p r, reach m -> class_of m a = Some c -> In p (props c) -> pr_auid r = p_auid p -> mstep m (OProp a r) = Ok m.
Proof.
  intros m a c p r R X I E. pose proof (reach_MInv _ R) as M. pose proof M as ((P & _) & _). apply class_of_heap in X as (h & X & Z & _); auto.
  cbn [mstep]. rewrite Z. unfold register_propertydef. rewrite X. destruct (P _ _ X) as (N & K & _). unfold props in I. apply in_map_iff in I as ([k q] & Eq & I). cbn in Eq. subst q.
  pose proof (In_zget _ _ _ _ N I) as G. pose proof (K _ _ G) as Ek. rewrite E, Ek, G. reflexivity.
Qed.
(** What a newly copied type is made of is there too: its element type, the types of its members, the
    class it refers to (unless that is the topmost class, or its name is taken). *)
Theorem C61_parts : forall fuel src dst t dst', reach dst -> external_type fuel src dst t = Ok dst' -> type_of dst (t_auid t) = None ->
  (forall el, element (t_kind t) = Some el \/ t_kind t = KRename el -> exists e, type_of src el = Some e /\ type_of dst' (t_auid e) <> None) /\
  (forall fields n el, t_kind t = KRec fields -> In (n, el) fields -> exists e, type_of src el = Some e /\ type_of dst' (t_auid e) <> None) /\
  (forall c, t_kind t = KStrong c -> exists k l, class_of src c = Some k /\ chain src k l /\
     (l = [k] \/ exists k', class_of dst' (c_auid k) = Some k' \/ (class_named dst' (c_name k) = Some k' /\ c_auid k' <> c_auid k))).
Proof.
  intros fuel src dst t dst' R E D. assert (Hs : forall a c, class_of src a = Some c -> In c (m_heap src)) by (intros a c X; unfold class_of in X; destruct (zget (m_cauid src) a); [eapply nth_error_In; eauto|discriminate]).
  pose proof (external_type_new _ _ _ _ _ E D) as (t' & _ & _ & _ & Kind). destruct fuel as [|fuel]; [discriminate|]. cbn [external_type] in E. rewrite D in E.
  match type of E with bind ?x _ = _ => destruct x as [m1|] eqn:E1; [|discriminate] end. cbn [bind] in E.
  match type of E1 with bind ?x _ = _ => destruct x as [m2|] eqn:E2; [|discriminate] end. cbn [bind] in E1.
  destruct (copy_typedef fuel src m2 t) as [c|] eqn:C; [|discriminate]. cbn [bind] in E1. injection E1 as <-.
  assert (U : forall a x, type_of m2 a = Some x -> type_of dst' a <> None).
  { intros a x X. assert (Y : type_of (enter_copy m2 c) a <> None).
    { unfold type_of, enter_copy, enter_type, push_type. mcbn. rewrite zget_set. destruct (Z.eqb_spec (t_auid c) a); [rewrite nth_error_app2, Nat.sub_diag; [discriminate|auto]|].
      unfold type_of in X. destruct (zget (m_tauid m2) a); [|discriminate]. rewrite (nth_app_old _ _ _ _ _ X). discriminate. }
    destruct (type_of (enter_copy m2 c) a) as [y|] eqn:Y'; [|congruence]. destruct (merge_up _ _ _ _ _ E Y') as (z & Z & _). congruence. }
  pose proof (reach_MInv _ R) as M. destruct (external_ok fuel) as [XT XC].
  assert (El : forall el, match type_of src el with None => Ok dst | Some e => external_type fuel src dst e end = Ok m2 -> (exists a, type_auid src el = Ok a) -> exists e, type_of src el = Some e /\ type_of dst' (t_auid e) <> None).
  { intros el Q (a & Ta). unfold type_auid in Ta. destruct (type_of src el) as [e|]; [|discriminate]. exists e. split; auto. destruct (XT _ _ _ _ M Q) as (_ & _ & N). destruct (type_of m2 (t_auid e)) as [x|] eqn:X; [|congruence]. eauto. }
  unfold copy_typedef in C. split; [|split].
  - intros el [Q|Q].
    + destruct (t_kind t) eqn:K; cbn in Q; try discriminate; injection Q as <-; (apply El; [exact E2|]);
      try (destruct (type_auid src _) as [a|] eqn:Ta; [eauto|discriminate]).
      unfold type_auid. destruct (type_of src el0); discriminate.
    + rewrite Q in *. apply El; [exact E2|]. destruct (type_auid src el) as [a|] eqn:Ta; [eauto|discriminate].
  - intros fields n el K I. rewrite K in *. destruct (types_auids src fields) as [l|] eqn:T; [|discriminate].
    assert (Te : exists e, type_of src el = Some e).
    { clear - T I. revert l T. induction fields as [|[n0 a0] fields IH]; cbn; intros l T; [destruct I|]. unfold type_auid in T at 1. destruct (type_of src a0) as [e|] eqn:Ea; [|discriminate]. cbn [bind] in T.
      destruct (types_auids src fields) as [l'|]; [|discriminate]. destruct I as [I|I]; [injection I as -> ->; eauto|eauto]. }
    destruct Te as [e Te]. exists e. split; auto.
    assert (G : MInv m2 /\ gfrom src dst m2 /\ forall f, In f fields -> forall e, type_of src (snd f) = Some e -> type_of m2 (t_auid e) <> None).
    { apply (each_ok _ _ src (fun f m => forall e, type_of src (snd f) = Some e -> type_of m (t_auid e) <> None)) with (3 := M) (4 := E2).
      - intros f a b Q (_ & _ & G & _) e0 He. specialize (Q e0 He). destruct (type_of a (t_auid e0)) as [x|] eqn:X; [|congruence]. destruct (G _ _ X) as (x' & X' & _). congruence.
      - intros f a b _ Ma X. destruct (type_of src (snd f)) as [e0|] eqn:Te0; [|injection X as <-; split; [auto|split; [apply gfrom_refl|discriminate]]].
        destruct (XT _ _ _ _ Ma X) as (Mb & Gb & Nb). split; auto. split; auto. intros e1 He. injection He as <-. auto. }
    destruct G as (_ & _ & G). specialize (G _ I e Te). cbn [snd] in G. destruct (type_of m2 (t_auid e)) as [x|] eqn:X; [|congruence]. eauto.
  - intros c0 K. rewrite K in *. destruct (class_of src c0) as [k|] eqn:Ck; [|discriminate]. exists k. pose proof E2 as E2'. destruct (XC _ _ _ _ M (Hs _ _ Ck) E2) as (M2 & G2 & A).
    destruct fuel as [|fuel]; [discriminate|]. cbn [external_class] in E2'. destruct (relatives src k) as [l|] eqn:Rl; [|discriminate]. clear E2'. exists l. split; auto.
    assert (Ch : chain src k l) by (apply chain_lineage, relatives_iff; auto). split; auto.
    destruct (lineage_heap _ _ _ (proj1 (relatives_iff _ _ _) Rl)) as [_ Hd]. destruct l as [|x [|y l]]; cbn in Hd; [discriminate|injection Hd as ->; auto|]. injection Hd as ->. right.
    assert (Ik : In k (tl (rev (k :: y :: l)))).
    { cbn [rev]. destruct (rev l) as [|z r] eqn:Rv; cbn; [auto|]. apply in_app_iff. right. left. auto. }
    destruct (A _ eq_refl k Ik) as (h & k' & Ek & Dk & _). exists k'.
    assert (HC : forall a, class_of dst' a = class_of m2 a /\ forall n, class_named dst' n = class_named m2 n).
    { intros a. assert (S : same_classes m2 dst').
      { unfold merge_elements in E. destruct (t_kind t); try (injection E as <-; repeat split). all: discriminate. }
      destruct S as (S1 & S2 & S3 & _). unfold class_of, class_named. rewrite S1, S2, S3. auto. }
    destruct Dk as [Dk|[D1 D2]]; [left; rewrite (proj1 (HC _)); unfold class_of; rewrite Dk; auto|right; split; auto; rewrite (proj2 (HC 0)); unfold class_named; rewrite D2; auto].
Qed.

(** ** The format of a property *)

(** The stored formats (properties.py:33-40) by type: references and streams have their own, vectors and
    sets of references theirs, everything else is data. *)
Definition strong_ref (t : tdef) : Prop := exists c, t_kind t = KStrong c.
Definition weak_ref (t : tdef) : Prop := exists c path, t_kind t = KWeak c path.
Inductive stored_as (m : meta) (t : tdef) : Z -> Prop :=
| as_strong : strong_ref t -> stored_as m t 0x22
| as_weak : weak_ref t -> stored_as m t 0x02
| as_stream : t_kind t = KStream -> stored_as m t 0x42
| as_strong_vector : forall el e, t_kind t = KVar el -> type_of m el = Some e -> strong_ref e -> stored_as m t 0x32
| as_weak_vector : forall el e, t_kind t = KVar el -> type_of m el = Some e -> weak_ref e -> stored_as m t 0x12
| as_strong_set : forall el e, t_kind t = KSet el -> type_of m el = Some e -> strong_ref e -> stored_as m t 0x3A
| as_weak_set : forall el e, t_kind t = KSet el -> type_of m el = Some e -> weak_ref e -> stored_as m t 0x1A
| as_data : ~ strong_ref t -> ~ weak_ref t -> t_kind t <> KStream ->
    (forall el e, t_kind t = KVar el \/ t_kind t = KSet el -> type_of m el = Some e -> ~ strong_ref e /\ ~ weak_ref e) -> stored_as m t 0x82.
Lemma stored_as_ref : forall m t f, stored_as m t f -> (f = 0x22 <-> strong_ref t) /\ (f = 0x02 <-> weak_ref t).
Proof.
  intros m t f H. unfold strong_ref, weak_ref in *. inversion H as [(c & K)|(c & p & K)|K|el e K _ _|el e K _ _|el e K _ _|el e K _ _|N1 N2 _ _]; subst; split; split; intros X; try lia; eauto;
  try (destruct X as (? & X); congruence); try (destruct X as (? & ? & X); congruence); tauto.
Qed.
Theorem C62_format : forall fuel m t f, store_format fuel m t = Ok f -> stored_as m t f.
Proof.
  induction fuel as [|fuel IH]; intros m t f E; [discriminate|]. cbn [store_format] in E. unfold SF_STRONG, SF_WEAK, SF_DATA, SF_DATA_STREAM, SF_STRONG_VECTOR, SF_WEAK_VECTOR, SF_STRONG_SET, SF_WEAK_SET in E.
  destruct (t_kind t) eqn:K; try (injection E as <-; apply as_data; unfold strong_ref, weak_ref; rewrite K; [intros (? & ?); discriminate|intros (? & ? & ?); discriminate|discriminate|intros ? ? [?|?]; discriminate]).
  - destruct (type_of m el) as [e|] eqn:T; [|discriminate]. destruct (store_format fuel m e) as [g|] eqn:F; [|discriminate]. cbn [bind] in E. apply IH in F. destruct (stored_as_ref _ _ _ F) as [R1 R2].
    injection E as <-. destruct (Z.eqb_spec g 0x02) as [->|N1]; [eapply as_weak_vector; eauto; apply R2; auto|]. destruct (Z.eqb_spec g 0x22) as [->|N2]; [eapply as_strong_vector; eauto; apply R1; auto|].
    apply as_data; [unfold strong_ref; rewrite K; intros (? & ?); discriminate|unfold weak_ref; rewrite K; intros (? & ? & ?); discriminate|rewrite K; discriminate|rewrite K].
    intros el' e' [Q|Q] T'; [|discriminate]. injection Q as <-. assert (e' = e) by congruence. subst e'. split; [rewrite <- R1; auto|rewrite <- R2; auto].
  - injection E as <-. apply as_stream. auto.
  - destruct (type_of m el) as [e|] eqn:T; [|discriminate]. destruct (store_format fuel m e) as [g|] eqn:F; [|discriminate]. cbn [bind] in E. apply IH in F. destruct (stored_as_ref _ _ _ F) as [R1 R2].
    destruct (Z.eqb_spec g 0x22) as [->|N2]; [injection E as <-; eapply as_strong_set; eauto; apply R1; auto|]. destruct (Z.eqb_spec g 0x02) as [->|N1]; [injection E as <-; eapply as_weak_set; eauto; apply R2; auto|].
    destruct (Z.eqb_spec g 0x82); [injection E as <-|discriminate].
    apply as_data; [unfold strong_ref; rewrite K; intros (? & ?); discriminate|unfold weak_ref; rewrite K; intros (? & ? & ?); discriminate|rewrite K; discriminate|rewrite K].
    intros el' e' [Q|Q] T'; [discriminate|]. injection Q as <-. assert (e' = e) by congruence. subst e'. split; [rewrite <- R1; auto|rewrite <- R2; auto].
  - injection E as <-. apply as_strong. unfold strong_ref. eauto.
  - injection E as <-. apply as_weak. unfold weak_ref. eauto.
Qed.

(** ** Cases *)
(** The built-in model is reached, Mob is stored and Root is not, and an enumeration of it can be extended:
    a new value is added, a known name and a known value are not. *)
Example C60_stored_case : forall m, full_model = Ok m -> reach m.
Proof. intros m H. apply reach_built_in. right. exact H. Qed.
Example C60_extend_case :
  (do m <- mrun meta0 [OType (TDef "UInt8" 1 (KInt 1 false)); OType (TDef "Layout" 2 (KEnum 1 [(0, "Full"); (1, "Separate")])); OClass (CRow "Root" 3 None true []); OClass (CRow "Mob" 4 None true []); OAlias "Package" "Mob"] ;;
   do m' <- register_type m (TDef "Layout" 9 (KEnum 1 [(1, "Split"); (2, "Single"); (7, "Full")])) ;;
   Ok (type_of m' 2, type_of m' 9, option_map c_name (class_named m' "Package"), m_cset m', m_tset m')) =
  Ok (Some (TDef "Layout" 2 (KEnum 1 [(0, "Full"); (1, "Separate"); (2, "Single")])), None, Some "Mob", [4], [1; 2])%string.
Proof. vm_compute. reflexivity. Qed.
Example C61_merge_case :
  (do src <- mrun meta0 [OType (TDef "UInt8" 1 (KInt 1 false)); OType (TDef "Layout" 2 (KEnum 1 [(0, "Full"); (4, "Mixed")]))] ;;
   do dst <- mrun meta0 [OType (TDef "UInt8" 1 (KInt 1 false)); OType (TDef "Layout" 2 (KEnum 1 [(0, "Full"); (1, "Separate")]))] ;;
   match type_of src 2 with Some t => do dst' <- external_type 4 src dst t ;; Ok (type_of dst' 2) | None => Err KeyError end) =
  Ok (Some (TDef "Layout" 2 (KEnum 1 [(0, "Full"); (1, "Separate"); (4, "Mixed")])))%string.
Proof. vm_compute. reflexivity. Qed.
Print Assumptions C60_stored.
Print Assumptions C60_alias.
Print Assumptions C60_alias_unknown.
Print Assumptions C60_new_type.
Print Assumptions C60_known_enum.
Print Assumptions C60_known_ext_enum.
Print Assumptions C61_enum_merged.
Print Assumptions C62_format.
Print Assumptions C60_again.
Print Assumptions C61_parts.
