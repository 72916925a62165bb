(** C61: copying class and type definitions into another file, as AAFObject.copy does (core.py:258-262). *)
From Verif Require Import Base BaseFacts Codec Text TypesModel TimelineModel MetaModel MetaFacts MetaTables PropsMeta MetaCopyFacts PropsBuiltin.
From Coq Require Import ZArith List Bool String Lia.
Import ListNotations.
Open Scope Z_scope.

(** The dictionaries a file can have: registrations (C60) and copies of classes of other files, in any
    order. The other file [src] is any file and [c] a class of it. *)
Inductive reach : meta -> Prop :=
| reach_new : reach meta0
| reach_step : forall m o m', reach m -> lets_choose o -> mstep m o = Ok m' -> reach m'
| reach_copy : forall m fuel src c m', reach m -> In c (m_heap src) -> external_class fuel src m c = Ok m' -> reach m'
| reach_type : forall m fuel src t m', reach m -> external_type fuel src m t = Ok m' -> reach m'.
Lemma reach_MInv : forall m, reach m -> MInv m.
Proof.
  induction 1 as [|m o m' H IH L E|m fuel src c m' H IH I E|m fuel src t m' H IH E]; [apply MInv0| | |].
  - eapply mstep_ok; eauto.
  - destruct (external_ok fuel) as [_ X]. apply X in E; tauto.
  - destruct (external_ok fuel) as [X _]. apply X in E; tauto.
Qed.
Lemma reach_run : forall ops m, Forall lets_choose ops -> mrun meta0 ops = Ok m -> reach m.
Proof.
  intros ops m. assert (G : forall ops m0, reach m0 -> Forall lets_choose ops -> mrun m0 ops = Ok m -> reach m).
  { induction ops0 as [|o l IH]; cbn [mrun]; intros m0 R F E; [injection E as <-; auto|]. inversion F; subst. destruct (mstep m0 o) as [m1|] eqn:E1; [|discriminate]. cbn [bind] in E. eapply IH; [eapply reach_step; eauto|auto|auto]. }
  intros F E. eapply G; eauto. constructor.
Qed.
Lemma reach_built_in : forall m, built_in m -> reach m.
Proof. intros m H. destruct (built_in_run m H) as (ops & F & E). eapply reach_run; eauto. Qed.

(** In every such dictionary lookups agree and dynamic property ids are distinct. *)
Theorem C61_lookups_agree : forall m, reach m ->
  (forall n c, class_named m n = Some c -> class_of m (c_auid c) = Some c) /\
  (forall a c, class_of m a = Some c -> c_auid c = a) /\
  (forall a c p b d q, class_of m a = Some c -> In p (props c) -> class_of m b = Some d -> In q (props d) -> 32768 <= p_pid p -> p_pid p = p_pid q -> a = b /\ p = q).
Proof.
  intros m R. pose proof (reach_MInv _ R) as M. pose proof M as (P & A & B & C). split; [|split].
  - intros n c. unfold class_named, class_of. destruct (sget (m_cname m) n) as [h|]; [|discriminate]. intros X. rewrite (C _ _ X). auto.
  - intros a c X. apply class_of_heap in X as (h & _ & _ & X); auto.
  - intros a c p b d q X I Y J D Eq. apply class_of_heap in X as (h & X & _ & <-); auto. apply class_of_heap in Y as (k & Y & _ & <-); auto.
    destruct P as (_ & _ & One). destruct (One _ _ _ _ _ _ X I Y J Eq D) as [-> ->]. split; [|auto]. congruence.
Qed.

(** [p'] is the property [q] of the other file: same name, identifier and flags, the type with the same
    identifier, the same id unless that is dynamic *)
Definition same_property (src : meta) (q p' : pdef) : Prop :=
  p_name p' = p_name q /\ p_auid p' = p_auid q /\ p_opt p' = p_opt q /\ p_uniq p' = p_uniq q /\
  (exists t, type_of src (p_type q) = Some t /\ p_type p' = t_auid t) /\ (p_pid q < 32768 -> p_pid p' = p_pid q).

(** Copying a class brings the class and every ancestor but the topmost: each is found by its
    identifier, unless a class with another identifier already holds its name. Every property of each is
    there; it is one the file had before, or the property with that identifier of the other file. Its type
    is there as well. *)
Theorem C61_class_arrives : forall fuel src dst c dst', reach dst -> In c (m_heap src) -> external_class fuel src dst c = Ok dst' ->
  exists l, chain src c l /\ forall k, In k l -> k <> last l c ->
  exists k', (class_of dst' (c_auid k) = Some k' \/ (class_named dst' (c_name k) = Some k' /\ c_auid k' <> c_auid k)) /\
    forall p, In p (props k) -> exists p', In p' (props k') /\ p_auid p' = p_auid p /\
      ((exists k0, class_of dst (c_auid k') = Some k0 /\ In p' (props k0)) \/ (exists kq q, In kq (m_heap src) /\ In q (props kq) /\ same_property src q p')) /\
      exists t t', type_of src (p_type p) = Some t /\ type_of dst' (t_auid t) = Some t'.
Proof.
  intros fuel src dst c dst' R Ic E. pose proof (reach_MInv _ R) as M. destruct (external_ok fuel) as [_ X]. destruct (X src dst c dst' M Ic E) as (M' & G & K).
  destruct fuel as [|fuel]; [discriminate|]. cbn [external_class] in E. destruct (relatives src c) as [l|] eqn:Rl; [|discriminate]. clear E. exists l. split; [apply chain_lineage, relatives_iff; auto|].
  intros k Ik Nk. assert (Ik' : In k (tl (rev l))).
  { assert (L : l <> []) by (intros ->; destruct Ik). destruct (exists_last L) as (l0 & z & ->). rewrite rev_app_distr. cbn. rewrite last_last in Nk. apply in_app_iff in Ik as [I|[<-|[]]]; [apply in_rev in I; auto|congruence]. }
  destruct (K l eq_refl k Ik') as (h & k' & Ek & D & Hp). exists k'. split.
  - destruct D as [D|[D1 D2]]; [left; unfold class_of; rewrite D; auto|right; split; [unfold class_named; rewrite D2; auto|auto]].
  - intros p Ip. destruct (Hp p Ip) as ((p' & Z) & Ht). destruct M' as ((Pc & _) & _). destruct (Pc _ _ Ek) as (_ & Pa & _). exists p'.
    assert (Ip' : In p' (props k')) by (apply zget_In in Z; apply (in_map snd) in Z; exact Z). split; auto. split; [eapply Pa; eauto|]. split; auto.
    destruct G as ((_ & _ & G3) & _ & _ & Q). destruct (Q _ _ _ Ek Ip') as [(k0 & E0 & I0)|(kq & q & t & H1 & H2 & H3 & H4 & H5 & H6 & H7 & H8 & H9)].
    + left. exists k0. split; auto. destruct (G3 _ _ E0) as (k1 & E1 & (_ & Ha & _) & _). assert (k1 = k') by congruence. subst k1. destruct M as (_ & _ & _ & C). unfold class_of. rewrite Ha, (C _ _ E0). auto.
    + right. exists kq, q. split; auto. split; auto. unfold same_property. split; [auto|]. split; [auto|]. split; [auto|]. split; [auto|]. split; [exists t; auto|auto].
Qed.
(** A copy keeps what the file had: classes with their head and properties, and types. *)
Theorem C61_nothing_lost : forall fuel src dst c dst', reach dst -> In c (m_heap src) -> external_class fuel src dst c = Ok dst' ->
  (forall a k, class_of dst a = Some k -> exists k', class_of dst' a = Some k' /\ same_head k k' /\ forall p, In p (props k) -> In p (props k')) /\
  (forall a t, type_of dst a = Some t -> exists t', type_of dst' a = Some t' /\ typ_up t t').
Proof.
  intros fuel src dst c dst' R Ic E. pose proof (reach_MInv _ R) as M. destruct (external_ok fuel) as [_ X]. destruct (X src dst c dst' M Ic E) as (M' & (G & _ & T & _) & _). split; auto.
  intros a k Hk. destruct (class_of_grows _ _ _ _ G Hk) as (k' & Hk' & Hh & Hp). exists k'. split; auto. split; auto. intros p I.
  pose proof M as ((Pc & _) & _). apply class_of_heap in Hk as (h & Hk & _); auto. destruct (Pc _ _ Hk) as (N & Pa & _).
  unfold props in I. apply in_map_iff in I as ([x y] & Ey & I). cbn in Ey. subst y. pose proof (In_zget _ _ _ _ N I) as Z. apply Hp in Z. apply zget_In in Z. apply (in_map snd) in Z. exact Z.
Qed.
(** A property whose identifier is declared once in the other file, in a class not known before, arrives
    as itself. *)
Corollary C61_new_property : forall fuel src dst c dst', reach dst -> In c (m_heap src) -> external_class fuel src dst c = Ok dst' ->
  forall l k p, chain src c l -> In k l -> k <> last l c -> class_of dst (c_auid k) = None -> class_named dst' (c_name k) = class_of dst' (c_auid k) ->
  In p (props k) -> (forall kq q, In kq (m_heap src) -> In q (props kq) -> p_auid q = p_auid p -> q = p) ->
  exists k' p', class_of dst' (c_auid k) = Some k' /\ In p' (props k') /\ same_property src p p'.
Proof.
  intros fuel src dst c dst' R Ic E l k p Hl Ik Nk N Hn Ip U. destruct (C61_class_arrives _ _ _ _ _ R Ic E) as (l' & Hl' & Q).
  assert (l' = l) by (apply chain_lineage in Hl, Hl'; eapply lineage_fun; eauto). subst l'. destruct (Q k Ik Nk) as (k' & D & P). destruct (P p Ip) as (p' & I' & A & W & _).
  assert (R' : reach dst') by (eapply reach_copy; eauto). destruct (C61_lookups_agree _ R') as (_ & La & _).
  assert (D' : class_of dst' (c_auid k) = Some k'). { destruct D as [D|[D1 D2]]; auto. rewrite Hn in D1. apply La in D1 as D3. congruence. }
  exists k', p'. split; auto. split; auto. destruct W as [(k0 & H0 & _)|(kq & q & Iq & Jq & S)].
  - apply La in D'. rewrite D' in H0. congruence.
  - assert (q = p). { apply (U kq q); auto. destruct S as (_ & S & _). congruence. } subst q. auto.
Qed.

(** ** Types *)
(** the kind of a copied type: the same, its references by the identifiers found in the other file *)
Inductive same_kind (src : meta) : tkind -> tkind -> Prop :=
| sk_same : forall k, In k [KStream; KOpaque; KChar; KIndirect] -> same_kind src k k
| sk_int : forall n s, same_kind src (KInt n s) (KInt n s)
| sk_ext : forall l l', incl l l' -> same_kind src (KExt l) (KExt l')
| sk_enum : forall a e l l', type_of src a = Some e -> incl l l' -> same_kind src (KEnum a l) (KEnum (t_auid e) l')
| sk_fixed : forall a e n, type_of src a = Some e -> same_kind src (KFixed a n) (KFixed (t_auid e) n)
| sk_var : forall a e, type_of src a = Some e -> same_kind src (KVar a) (KVar (t_auid e))
| sk_rename : forall a e, type_of src a = Some e -> same_kind src (KRename a) (KRename (t_auid e))
| sk_string : forall a e, type_of src a = Some e -> same_kind src (KString a) (KString (t_auid e))
| sk_rec : forall f f', Forall2 (fun x y => fst y = fst x /\ exists e, type_of src (snd x) = Some e /\ snd y = t_auid e) f f' -> same_kind src (KRec f) (KRec f')
| sk_genchar : forall n p p', same_kind src (KGenChar n p) (KGenChar n p')
| sk_strong : forall a c, class_of src a = Some c -> same_kind src (KStrong a) (KStrong (c_auid c))
| sk_weak : forall a c, class_of src a = Some c -> same_kind src (KWeak a []) (KWeak (c_auid c) []).
Lemma types_auids_ok : forall src l l', types_auids src l = Ok l' -> Forall2 (fun x y => fst y = fst x /\ exists e, type_of src (snd x) = Some e /\ snd y = t_auid e) l l'.
Proof.
  induction l as [|[n a] l IH]; intros l' E; cbn [types_auids] in E; [injection E as <-; constructor|]. unfold type_auid in E. destruct (type_of src a) as [e|] eqn:T; [|discriminate]. cbn [bind] in E.
  destruct (types_auids src l) as [r|]; [|discriminate]. cbn [bind] in E. injection E as <-. constructor; [cbn; eauto|auto].
Qed.
Lemma path_from_len : forall fuel m path c l, path_from fuel m c path = Ok l -> List.length l = List.length path.
Proof.
  induction path as [|a path IH]; intros c l E; cbn [path_from] in E; [injection E as <-; auto|]. destruct c as [c|]; [|discriminate]. destruct (find _ (props c)) as [p|]; [|discriminate].
  destruct (type_of m (p_type p)) as [t|]; [|discriminate]. destruct (ref_classdef fuel m t) as [c'|]; [|discriminate]. cbn [bind] in E. destruct (path_from fuel m c' path) as [r|] eqn:R; [|discriminate]. cbn [bind] in E. injection E as <-. cbn. f_equal. eauto.
Qed.
Lemma copy_typedef_ok : forall fuel src dst t t', copy_typedef fuel src dst t = Ok t' -> t_auid t' = t_auid t /\ t_name t' = object_name src t /\ same_kind src (t_kind t) (t_kind t').
Proof.
  intros fuel src dst t t' E. unfold copy_typedef in E. match type of E with bind ?x _ = _ => destruct x as [k|] eqn:K; [|discriminate] end. cbn [bind] in E.
  assert (W : forall x, (do a <- type_auid src x ;; Ok a) = type_auid src x) by (intros x; destruct (type_auid src x); reflexivity).
  assert (S : same_kind src (t_kind t) k).
  { destruct (t_kind t) eqn:Kt; cbn beta iota in K; unfold type_auid, class_auid in K.
    all: try (injection K as <-; first [apply sk_int | apply sk_ext, incl_refl | apply sk_genchar | apply sk_same; cbn; tauto]).
    - destruct (type_of src el) as [e|] eqn:T; [|discriminate]. injection K as <-. apply sk_enum; [auto|apply incl_refl].
    - destruct (types_auids src fields) as [l|] eqn:L; [|discriminate]. injection K as <-. apply sk_rec. apply types_auids_ok; auto.
    - destruct (type_of src el) as [e|] eqn:T; [|discriminate]. injection K as <-. apply sk_fixed; auto.
    - destruct (type_of src el) as [e|] eqn:T; [|discriminate]. injection K as <-. apply sk_var; auto.
    - destruct (type_of src el) as [e|] eqn:T; [|discriminate]. injection K as <-. apply sk_rename; auto.
    - destruct (type_of src el) as [e|] eqn:T; [|discriminate]. injection K as <-. apply sk_string; auto.
    - destruct (type_of src el); discriminate.
    - destruct (class_of src cls) as [c|] eqn:C; [|discriminate]. injection K as <-. apply sk_strong; auto.
    - destruct (class_of src cls) as [c|] eqn:C; [|discriminate]. cbn [bind] in K. destruct (propertydef_path fuel src path) as [l|] eqn:L; [|discriminate]. cbn [bind] in K.
      destruct l; [|discriminate]. injection K as <-. apply path_from_len in L. destruct path; [|discriminate]. apply sk_weak; auto. }
  unfold new_type in E. cbn [t_kind t_name t_auid] in E.
  destruct k; try (injection E as <-; auto). destruct (char_size_pid dst) as [pid'|]; [|discriminate]. injection E as <-. cbn. split; [auto|split; [auto|]]. clear K. remember (t_kind t) as kt. inversion S; subst; try apply sk_genchar; congruence.
Qed.
Lemma same_kind_up : forall src k k1 k2, same_kind src k k1 -> kind_up k1 k2 -> same_kind src k k2.
Proof.
  intros src k k1 k2 S [->|[(o & n & -> & -> & I)|(el & o & n & -> & -> & I)]]; auto; inversion S; subst.
  - match goal with H : In _ _ |- _ => cbn in H; repeat (destruct H as [H|H]; [discriminate|]); destruct H end.
  - constructor. eapply incl_tran; eauto.
  - match goal with H : In _ _ |- _ => cbn in H; repeat (destruct H as [H|H]; [discriminate|]); destruct H end.
  - constructor; [auto|]. eapply incl_tran; eauto.
Qed.
Lemma merge_up : forall a b m' i x, merge_elements a b = Ok m' -> type_of a i = Some x -> exists x', type_of m' i = Some x' /\ typ_up x x'.
Proof.
  intros a b m' i x E H. unfold merge_elements in E.
  assert (W : forall h o y, nth_error (m_theap a) h = Some o -> typ_up o y -> m' = with_type a h y -> exists x', type_of m' i = Some x' /\ typ_up x x').
  { intros h o y O U ->. unfold type_of in *. cbn [with_type m_tauid m_theap]. destruct (zget (m_tauid a) i) as [k|]; [|discriminate].
    destruct (Nat.eq_dec k h) as [->|Nk]; [rewrite (upd_same _ _ _ _ _ O); exists y; split; [auto|congruence]|rewrite upd_other by auto; exists x; split; [auto|apply typ_up_refl]]. }
  destruct (t_kind b) as [| | | | | | | | |new| | | | | |] eqn:K; try (injection E as <-; exists x; split; [auto|apply typ_up_refl]);
  (destruct (zget (m_tauid a) (t_auid b)) as [h|]; [|discriminate]); destruct (nth_error (m_theap a) h) as [[n0 a0 k]|] eqn:N; try discriminate; destruct k; try discriminate; injection E as E; symmetry in E; eapply W; eauto;
  (split; [auto|split; [auto|]]).
  all: try (right; left; eexists; eexists; split; [reflexivity|split; [reflexivity|apply add_elements_incl]]).
  all: right; right; eexists; eexists; eexists; split; [reflexivity|split; [reflexivity|apply add_elements_incl]].
Qed.
Lemma external_type_new : forall fuel src dst t dst', external_type fuel src dst t = Ok dst' -> type_of dst (t_auid t) = None ->
  exists t', type_of dst' (t_auid t) = Some t' /\ t_auid t' = t_auid t /\ t_name t' = object_name src t /\ same_kind src (t_kind t) (t_kind t').
Proof.
  intros fuel src dst t dst' E D. destruct fuel as [|fuel]; [discriminate|]. cbn [external_type] in E. rewrite D in E.
  match type of E with bind ?x _ = _ => destruct x as [m1|] eqn:E1; [|discriminate] end. cbn [bind] in E.
  match type of E1 with bind ?x _ = _ => destruct x as [m2|] eqn:E2; [|discriminate] end. cbn [bind] in E1.
  destruct (copy_typedef fuel src m2 t) as [c|] eqn:C; [|discriminate]. cbn [bind] in E1. injection E1 as <-. apply copy_typedef_ok in C as (Ca & Cn & Ck).
  assert (H : type_of (enter_copy m2 c) (t_auid t) = Some c) by (rewrite <- Ca; apply enter_copy_type).
  destruct (merge_up _ _ _ _ _ E H) as (t' & Et & (Un & Ua & Uk)). exists t'. split; [auto|]. split; [congruence|]. split; [congruence|]. eapply same_kind_up; eauto.
Qed.
(** Full statement: a type missing in the file is copied with its name, identifier and kind, and so are
    the types and classes it refers to. Identifier and kind are kept whenever copying succeeds; the
    name is not ([C61_type_name_refuted]), sets and weak references cannot be copied at all
    ([C61_set_refuted], [C61_weak_refuted]), and records can change meaning ([C61_record_refuted]). *)
Theorem C61_type_partial : forall fuel src dst t dst', reach dst -> external_type fuel src dst t = Ok dst' ->
  exists t', type_of dst' (t_auid t) = Some t' /\
    (type_of dst (t_auid t) = None -> t_auid t' = t_auid t /\ same_kind src (t_kind t) (t_kind t')) /\
    (forall x, type_of dst (t_auid t) = Some x -> typ_up x t').
Proof.
  intros fuel src dst t dst' R E. pose proof (reach_MInv _ R) as M. destruct (external_ok fuel) as [X _]. destruct (X src dst t dst' M E) as (M' & (G & _ & T & _) & N).
  destruct (type_of dst' (t_auid t)) as [t'|] eqn:Et; [|congruence]. exists t'. split; auto. split.
  - intros D. destruct (external_type_new _ _ _ _ _ E D) as (t2 & E2 & Ua & _ & Uk). assert (t2 = t') by congruence. subst t2. auto.
  - intros x Hx. destruct (T _ _ Hx) as (x' & E' & U). congruence.
Qed.

(** The copied type is called by the name of its class, not by its own. *)
Theorem C61_type_name_refuted : forall fuel src dst t dst' k, external_type fuel src dst t = Ok dst' -> type_of dst (t_auid t) = None ->
  class_of src (fst (kind_class (t_kind t))) = Some k -> exists t', type_of dst' (t_auid t) = Some t' /\ t_name t' = c_name k.
Proof.
  intros fuel src dst t dst' k E D K. destruct (external_type_new _ _ _ _ _ E D) as (t' & Et & _ & N & _). exists t'. split; auto. rewrite N. unfold object_name. rewrite K. auto.
Qed.
(** A set type that the file lacks is never copied. *)
Theorem C61_set_refuted : forall fuel src dst t el dst', t_kind t = KSet el -> type_of dst (t_auid t) = None -> external_type fuel src dst t <> Ok dst'.
Proof.
  intros fuel src dst t el dst' K D E. destruct (external_type_new _ _ _ _ _ E D) as (t' & _ & _ & _ & S). rewrite K in S. inversion S; subst.
  match goal with H : In _ _ |- _ => cbn in H; repeat (destruct H as [H|H]; [discriminate|]); destruct H end.
Qed.
(** Nor a weak reference with a path. *)
Theorem C61_weak_refuted : forall fuel src dst t c path dst', t_kind t = KWeak c path -> path <> [] -> type_of dst (t_auid t) = None -> external_type fuel src dst t <> Ok dst'.
Proof.
  intros fuel src dst t c path dst' K N D E. destruct (external_type_new _ _ _ _ _ E D) as (t' & _ & _ & _ & S). rewrite K in S. inversion S; subst; [|congruence].
  match goal with H : In _ _ |- _ => cbn in H; repeat (destruct H as [H|H]; [discriminate|]); destruct H end.
Qed.
(** A record of a one byte and a two byte integer, both new, takes three bytes in its file and four in
    the copy: the copies of the two integer types have one name, and members are looked up by name. *)
Definition odd_types : list tdef := [TDef "Small" 1001 (KInt 1 false); TDef "Wide" 1002 (KInt 2 false); TDef "Odd" 1003 (KRec [("a", 1001); ("b", 1002)])]%string.
Definition size_in (m : meta) (a : Z) : result Z := match type_of m a with Some t => do T <- typ_in 12 m t ;; byte_size T | None => Err KeyError end.
Theorem C61_record_refuted : forall m, full_model = Ok m -> exists src dst' t, mrun m (type_ops odd_types) = Ok src /\ type_of src 1003 = Some t /\
  external_type 8 src m t = Ok dst' /\ size_in src 1003 = Ok 3 /\ size_in dst' 1003 = Ok 4.
Proof.
  set (f := fun m => match mrun m (type_ops odd_types) with Ok src => match type_of src 1003 with Some t => match external_type 8 src m t with Ok dst' => Some (size_in src 1003, size_in dst' 1003) | Err _ => None end | None => None end | Err _ => None end).
  assert (G : view full_model f = Some (Some (Ok 3, Ok 4))) by (vm_compute; reflexivity).
  intros m H. pose proof (view_ok _ _ _ _ _ G H) as E. clear G H. unfold f in E. clear f. destruct (mrun m (type_ops odd_types)) as [src|]; [|discriminate]. destruct (type_of src 1003) as [t|] eqn:T; [|discriminate].
  destruct (external_type 8 src m t) as [dst'|] eqn:X; [|discriminate]. apply some_inj in E. exists src, dst', t. split; [reflexivity|]. split; [auto|]. split; [auto|]. split; [exact (f_equal fst E)|exact (f_equal snd E)].
Qed.
(** A class whose first property is a new strong reference to the class itself is copied for ever
    (a RecursionError): no number of steps is enough. *)
Lemma self_loop : forall src m K p S h top, relatives src K = Ok [K; top] -> zget (m_cauid m) (c_auid K) = Some h -> hd_error (props K) = Some p ->
  type_of src (p_type p) = Some S -> t_kind S = KStrong (c_auid K) -> class_of src (c_auid K) = Some K -> type_of m (t_auid S) = None ->
  forall fuel, external_class fuel src m K = Err OutOfFuel /\ external_type fuel src m S = Err OutOfFuel.
Proof.
  intros src m K p S h top R Z P T Ks C N. induction fuel as [|fuel [IH1 IH2]]; [split; reflexivity|]. split.
  - cbn [external_class]. rewrite R. cbn [bind rev app tl each]. rewrite Z. cbn [bind fst snd]. destruct (props K) as [|q l]; [discriminate|]. injection P as ->. cbn [each]. rewrite T, IH2. reflexivity.
  - cbn [external_type]. rewrite N, Ks, C, IH1. reflexivity.
Qed.
Theorem C61_self_refuted : forall src dst K p S top, relatives src K = Ok [K; top] -> hd_error (props K) = Some p -> type_of src (p_type p) = Some S ->
  t_kind S = KStrong (c_auid K) -> class_of src (c_auid K) = Some K -> reach dst -> type_of dst (t_auid S) = None ->
  class_named dst (c_name K) = None -> class_of dst (c_auid K) = None -> forall fuel dst', external_class fuel src dst K <> Ok dst'.
Proof.
  intros src dst K p S top R P T Ks C Rd N Nn Na fuel dst'. pose proof (reach_MInv _ Rd) as (Pi & A & B & Cc).
  assert (Nn' : sget (m_cname dst) (c_name K) = None). { unfold class_named in Nn. destruct (sget (m_cname dst) (c_name K)) as [h|] eqn:E; auto. apply A in E as (c & E). congruence. }
  assert (Na' : zget (m_cauid dst) (c_auid K) = None). { unfold class_of in Na. destruct (zget (m_cauid dst) (c_auid K)) as [h|] eqn:E; auto. apply B in E as (c & E & _). congruence. }
  assert (Pa : exists pa, parent src K = Some pa). { apply relatives_iff in R. inversion R; subst; eauto. }
  destruct Pa as [pa Pa].
  destruct (register_classdef dst (CRow (c_name K) (c_auid K) (Some (c_auid pa)) (c_conc K) [])) as [m1|] eqn:E1.
  - destruct fuel as [|fuel]; [discriminate|]. cbn [external_class]. rewrite R. cbn [bind rev app tl each]. rewrite Na', Pa, E1. cbn [bind].
    destruct (register_bare src _ _ _ _ _ _ (reach_MInv _ Rd) E1) as (M1 & _ & h & c & S1 & X1 & D1). rewrite S1. cbn [bind fst snd].
    destruct D1 as [D1|[_ D1]]; [|congruence]. destruct (register_classdef_ok _ _ _ (reach_MInv _ Rd) E1) as (_ & _ & _ & _ & T1 & T2 & T3 & T4).
    assert (N1 : type_of m1 (t_auid S) = None) by (unfold type_of in *; rewrite T3, T1; auto).
    destruct (self_loop src m1 K p S h top R D1 P T Ks C N1 fuel) as [_ L]. destruct (props K) as [|q l]; [discriminate|]. injection P as ->. cbn [each]. rewrite T, L. discriminate.
  - destruct fuel as [|fuel]; [discriminate|]. cbn [external_class]. rewrite R. cbn [bind rev app tl each]. rewrite Na', Pa, E1. discriminate.
Qed.

(** ** Cases *)
(** A class of its own with a static and a dynamic property, copied into a new file *)
Definition node_class : crow :=
  CRow "Node" 2001 (Some 0x0d01010101010100060e2b3402060101) true
    [PRow "Weight" 2002 (Some 0x7001) 0x0101070000000000060e2b3401040101 true false; PRow "Label" 2003 None 0x0110020000000000060e2b3401040101 false false].
Definition self_class : list mop :=
  [OType (TDef "NodeRef" 2010 (KStrong 2001)); OClass (CRow "Node" 2001 (Some 0x0d01010101010100060e2b3402060101) true [PRow "Next" 2011 None 2010 true false])].
Example C61_case : view full_model (fun m => do src <- register_classdef m node_class ;; match class_of src 2001 with
    | Some c => do dst <- base_model ;; do dst' <- external_class 8 src dst c ;; Ok (option_map (fun k => (c_name k, map (fun p => (p_name p, p_pid p, p_type p)) (props k))) (class_of dst' 2001), map (fun p => p_pid p) (props c))
    | None => Err KeyError end) =
  Some (Ok (Some ("Node", [("Weight", 0x7001, 0x0101070000000000060e2b3401040101); ("Label", 65467, 0x0110020000000000060e2b3401040101)]), [0x7001; 65369]))%string.
Proof. vm_compute. reflexivity. Qed.
Example C61_self_case : view full_model (fun m => do src <- mrun m self_class ;; match class_of src 2001, type_of src 2010 with
    | Some K, Some R => Ok (match relatives src K with Ok [a; b] => (c_auid a =? 2001) && (c_parent b =? c_auid b) | _ => false end, map p_type (props K), t_kind R, class_of m 2001, class_named m "Node", type_of m 2010)
    | _, _ => Err KeyError end) = Some (Ok (true, [2010], KStrong 2001, None, None, None)).
Proof. vm_compute. reflexivity. Qed.
Print Assumptions C61_lookups_agree.
Print Assumptions C61_class_arrives.
Print Assumptions C61_nothing_lost.
Print Assumptions C61_new_property.
Print Assumptions C61_type_partial.
Print Assumptions C61_type_name_refuted.
Print Assumptions C61_set_refuted.
Print Assumptions C61_weak_refuted.
Print Assumptions C61_record_refuted.
Print Assumptions C61_self_refuted.
