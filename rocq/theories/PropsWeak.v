(** C68: a weak reference leads to the object it was set to. *)
From Verif Require Import Base BaseFacts Codec Text IdsModel TypesModel ObjModel TimelineModel TreeModel PropsObj PropsTree MetaModel MetaFacts MetaTables WeakModel PropsBuiltin PropsMeta PropsPaths.
From Coq Require Import ZArith List Bool String Lia.
Import ListNotations.
Open Scope Z_scope.

(** ** Specification *)

(** the object has the property under its only entry [pid] *)
Definition has (o : obj) (pid : Z) (p : prop) : Prop := match o with Obj _ props => In (pid, p) props /\ NoDup (map fst props) end.
(** from an object along single references to a property *)
Inductive reaches : obj -> list Z -> prop -> Prop :=
| reaches_last : forall o pid p, has o pid p -> reaches o [pid] p
| reaches_step : forall o pid d r c path p, has o pid (PRef d r (Some c)) -> reaches c path p -> reaches o (pid :: path) p.
(** the property is a set that holds the object under the key, and no other *)
Definition in_set (p : prop) (key : list Z) (o : obj) : Prop :=
  match p with PSet _ _ _ _ _ _ items => NoDup (map fst items) /\ exists n, In (key, (n, o)) items | _ => False end.
(** the property ids along a path of property identifiers, starting at a class *)
Inductive along (m : meta) : cdef -> list Z -> list Z -> Prop :=
| along_last : forall c p t k, In p (props c) -> (forall q, In q (props c) -> p_auid q = p_auid p -> q = p) ->
    type_of m (p_type p) = Some t -> refers m t k -> along m c [p_auid p] [p_pid p]
| along_step : forall c p t k path pids, In p (props c) -> (forall q, In q (props c) -> p_auid q = p_auid p -> q = p) ->
    type_of m (p_type p) = Some t -> refers m t k -> along m k path pids -> along m c (p_auid p :: path) (p_pid p :: pids).
(** [t] is a reference to objects of class [c] that are in the set under [pids] *)
Definition weak_type (m : meta) (t : tdef) (c : cdef) (pids : list Z) : Prop :=
  exists cid path root, t_kind t = KWeak cid path /\ class_of m cid = Some c /\ class_named m "Root" = Some root /\ along m root path pids.
(** the class or one of its ancestors is [c] *)
Definition is_a (m : meta) (v c : cdef) : Prop := exists l a, chain m v l /\ In a l /\ c_auid a = c_auid c.
Definition is_not_a (m : meta) (v c : cdef) : Prop := exists l, chain m v l /\ forall a, In a l -> c_auid a <> c_auid c.
(** references to objects that are not found in the meta dictionary *)
Definition ordinary (c : cdef) : Prop := c_auid c <> 0x0d01010101010100060e2b3402060101 /\ c_auid c <> 0x0d01010102030000060e2b3402060101.
(** the table only grew *)
Definition extends (table later : list (list Z)) : Prop := exists l, later = table ++ l.

(** ** Facts *)
Lemma dict_get_in : forall V (l : list (Z * V)) k v, NoDup (map fst l) -> In (k, v) l -> dict_get Z.eqb l k = Some v.
Proof.
  intros V. induction l as [|[a x] l IH]; intros k v N I; [destruct I|]. cbn [map fst] in N. inversion N; subst. cbn [dict_get]. destruct I as [E|I].
  - injection E as -> ->. rewrite Z.eqb_refl. auto.
  - destruct (Z.eqb_spec a k) as [->|]; auto. exfalso. apply H1. change k with (fst (k, v)). apply in_map. auto.
Qed.
Lemma dict_get_Some_in : forall V (l : list (Z * V)) k v, dict_get Z.eqb l k = Some v -> In (k, v) l.
Proof.
  intros V. induction l as [|[a x] l IH]; intros k v H; [discriminate|]. cbn [dict_get] in H. destruct (Z.eqb_spec a k) as [->|]; [injection H as ->; left; auto|right; auto].
Qed.
Lemma key_get_in : forall V (l : list (list Z * V)) k v, NoDup (map fst l) -> In (k, v) l -> dict_get zlist_eqb l k = Some v.
Proof.
  intros V. induction l as [|[a x] l IH]; intros k v N I; [destruct I|]. cbn [map fst] in N. inversion N; subst. cbn [dict_get]. destruct I as [E|I].
  - injection E as -> ->. rewrite zlist_eqb_refl. auto.
  - destruct (zlist_eqb a k) eqn:E; auto. apply zlist_eqb_spec in E. subst a. exfalso. apply H1. change k with (fst (k, v)). apply in_map. auto.
Qed.
Lemma key_get_Some_in : forall V (l : list (list Z * V)) k v, dict_get zlist_eqb l k = Some v -> In (k, v) l.
Proof.
  intros V. induction l as [|[a x] l IH]; intros k v H; [discriminate|]. cbn [dict_get] in H. destruct (zlist_eqb a k) eqn:E; [apply zlist_eqb_spec in E; injection H as ->; subst; left; auto|right; auto].
Qed.
Lemma key_get_None : forall V (l : list (list Z * V)) k, ~ In k (map fst l) -> dict_get zlist_eqb l k = None.
Proof.
  intros V. induction l as [|[a x] l IH]; intros k H; auto. cbn [dict_get]. cbn [map fst In] in H. destruct (zlist_eqb a k) eqn:E; [apply zlist_eqb_spec in E; tauto|apply IH; tauto].
Qed.
Lemma entry_has : forall o pid p, has o pid p -> entry_at o pid = Ok p.
Proof. intros [c props] pid p [I N]. unfold entry_at. rewrite (dict_get_in _ _ _ _ N I). auto. Qed.
Lemma follow_reaches : forall o path p, reaches o path p -> follow o path = Ok p.
Proof.
  intros o path p H. induction H as [o pid p H|o pid d r c path p H R IH].
  - cbn [follow]. apply entry_has. auto.
  - cbn [follow]. destruct path as [|q path]; [inversion R|]. rewrite (entry_has _ _ _ H). cbn [bind object_of]. auto.
Qed.
Lemma resolve_ref_ok : forall root table i ref path p o, znth table i = Some path -> reaches root path p -> in_set p ref o -> resolve_ref root table i ref = Ok o.
Proof.
  intros root table i ref path p o T R S. unfold resolve_ref, weakref_prop, item. rewrite T. cbn [bind]. rewrite (follow_reaches _ _ _ R). cbn [bind].
  destruct p; try destruct S. unfold member. destruct H0 as [n I]. rewrite (key_get_in _ _ _ _ H I). auto.
Qed.
Lemma refers_fun : forall m t k, refers m t k -> forall k', refers m t k' -> k' = k.
Proof.
  intros m t k H. induction H as [t c k K C|t c path k K C|t el e k K E R IH]; intros k' H'.
  - inversion H'; subst; try congruence. destruct H; congruence.
  - inversion H'; subst; try congruence. destruct H; congruence.
  - inversion H'; subst; try (destruct K; congruence). apply IH. destruct K, H; congruence.
Qed.
Lemma ref_mono : forall fuel m t k, ref_classdef fuel m t = Ok k -> forall n, (fuel <= n)%nat -> ref_classdef n m t = Ok k.
Proof.
  induction fuel as [|fuel IH]; intros m t k H n L; [discriminate|]. destruct n as [|n]; [lia|]. cbn [ref_classdef] in *. destruct (t_kind t); auto; destruct (type_of m el); auto; apply IH; auto; lia.
Qed.
Lemma find_own : forall (l : list pdef) p, In p l -> (forall q, In q l -> p_auid q = p_auid p -> q = p) -> find (fun q => p_auid q =? p_auid p) l = Some p.
Proof.
  intros l p I U. destruct (find _ l) as [q|] eqn:F. { apply find_some in F as [J F]. apply Z.eqb_eq in F. rewrite (U q J F). auto. }
  exfalso. pose proof (find_none _ _ F p I) as X. cbn in X. rewrite Z.eqb_refl in X. discriminate.
Qed.
Lemma path_along : forall m c path pids, along m c path pids -> forall fuel l, path_from fuel m (Some c) path = Ok l -> map (fun x => p_pid (snd x)) l = pids.
Proof.
  intros m c path pids H. induction H as [c p t k I U T R|c p t k path pids I U T R A IH]; intros fuel l E; cbn [path_from] in E; rewrite (find_own _ _ I U), T in E.
  - destruct (ref_classdef fuel m t); [|discriminate]. cbn in E. injection E as <-. auto.
  - destruct (ref_classdef fuel m t) as [k'|] eqn:C; [|discriminate]. cbn [bind] in E. destruct (path_from fuel m k' path) as [r|] eqn:P; [|discriminate]. cbn [bind] in E. injection E as <-. cbn [map snd].
    f_equal. destruct k' as [k'|]. { apply ref_classdef_refers in C. rewrite (refers_fun _ _ _ R _ C) in P. eapply IH; eauto. }
    exfalso. inversion A; subst; discriminate.
Qed.
Lemma along_path : forall m c path pids, along m c path pids -> exists n, forall fuel, (n <= fuel)%nat -> exists l, path_from fuel m (Some c) path = Ok l.
Proof.
  intros m c path pids H. induction H as [c p t k I U T R|c p t k path pids I U T R A [n IH]]; apply C59_ref_class in R as [f R].
  - exists f. intros fuel L. cbn [path_from]. rewrite (find_own _ _ I U), T, (ref_mono _ _ _ _ R _ L). cbn. eauto.
  - exists (Nat.max f n). intros fuel L. cbn [path_from]. rewrite (find_own _ _ I U), T, (ref_mono _ _ _ _ R) by lia. cbn [bind]. destruct (IH fuel) as [l ->]; [lia|]. cbn. eauto.
Qed.
Lemma pid_path_is : forall fuel m t c pids l, weak_type m t c pids -> pid_path fuel m t = Ok l -> l = pids.
Proof.
  intros fuel m t c pids l (cid & path & root & K & C & Ro & A) H. unfold pid_path, propertydef_path in H. rewrite K, Ro in H. destruct (path_from fuel m (Some root) path) as [r|] eqn:P; [|discriminate]. cbn in H. injection H as <-. eapply path_along; eauto.
Qed.
Lemma class_is : forall fuel m t c pids k, weak_type m t c pids -> needed (ref_classdef fuel m t) = Ok k -> k = c.
Proof.
  intros fuel m t c pids k (cid & path & root & K & C & _) H. destruct fuel as [|fuel]; [discriminate|]. cbn [ref_classdef] in H. rewrite K, C in H. cbn in H. congruence.
Qed.
Lemma class_found : forall fuel m t c pids, weak_type m t c pids -> needed (ref_classdef (S fuel) m t) = Ok c.
Proof. intros fuel m t c pids (cid & path & root & K & C & _). cbn [ref_classdef]. rewrite K, C. auto. Qed.
Lemma isinstance_yes : forall m v c, is_a m v c -> isinstance m c v = Ok true.
Proof.
  intros m v c (l & a & H & I & E). unfold isinstance. destruct (c_auid c =? c_auid v); auto. rewrite (relatives_chain _ _ _ H). cbn [bind]. f_equal. apply existsb_exists. exists a. split; auto. apply Z.eqb_eq. auto.
Qed.
Lemma isinstance_no : forall m v c, is_not_a m v c -> isinstance m c v = Ok false.
Proof.
  intros m v c (l & H & N). unfold isinstance. destruct (Z.eqb_spec (c_auid c) (c_auid v)) as [E|_]. { exfalso. apply (N v); [inversion H; left; auto|auto]. }
  rewrite (relatives_chain _ _ _ H). cbn [bind]. f_equal. destruct (existsb _ l) eqn:X; auto. apply existsb_exists in X as (a & I & X). apply Z.eqb_eq in X. exfalso. apply (N a); auto.
Qed.
Lemma extends_znth : forall t t' i (q : list Z), extends t t' -> znth t i = Some q -> znth t' i = Some q.
Proof. intros t t' i q [l ->] H. rewrite znth_app1; auto. apply znth_Some in H. lia. Qed.
Lemma index_extends : forall t p t' i, weakref_index t p = (t', i) -> extends t t' /\ znth t' i = Some p.
Proof.
  intros t p t' i H. unfold weakref_index in H. pose proof (index_of_spec t p 0) as S. destruct (index_of p t 0) as [k|].
  - injection H as <- <-. destruct S as (a & b & -> & _ & ->). split; [exists []; rewrite app_nil_r; auto|]. rewrite znth_app2 by lia. replace (0 + zlen a - zlen a) with 0 by lia. unfold znth. rewrite zlen_cons. pose proof (zlen_nonneg _ b). replace ((0 <=? 0) && (0 <? 1 + zlen b)) with true by lia. auto.
  - injection H as <- <-. split; [exists [p]; auto|]. rewrite znth_app2 by lia. rewrite Z.sub_diag. reflexivity.
Qed.
Lemma complete_ok : forall m c path table index kp ks table' i kp' ks', complete m c path table index kp ks = Ok (table', i, kp', ks') ->
  extends table table' /\ match index with Some j => i = j /\ table' = table | None => exists l, path = Ok l /\ znth table' i = Some l end.
Proof.
  intros m c path table index kp ks table' i kp' ks' H. unfold complete in H.
  destruct (match kp with Some _ => Ok kp | None => unique_key_pid m c end) as [a|]; [|discriminate]. cbn [bind] in H.
  destruct (match ks with Some _ => Ok ks | None => do s <- unique_key_size m c ;; Ok (Some s) end) as [b|]; [|discriminate]. cbn [bind] in H.
  destruct index as [j|].
  - injection H as <- <- <- <-. split; auto. exists []. rewrite app_nil_r. auto.
  - destruct path as [l|]; [|discriminate]. cbn [bind] in H. destruct (weakref_index table l) as [t2 k] eqn:W. injection H as <- <- <- <-. apply index_extends in W as [W1 W2]. split; eauto.
Qed.

(** what an index that is already known has to be *)
Definition index_ok (table : list (list Z)) (pids : list Z) (index : option Z) : Prop :=
  match index with Some i => znth table i = Some pids | None => True end.

(** ** Single references *)
Lemma set_weak_ok : forall fuel m t table p v p' table', set_weak fuel m t table p v = Ok (p', table') ->
  exists f d index kp ks c i kp' ks' e, p = PWeak f d index kp ks (match p with PWeak _ _ _ _ _ r => r | _ => None end) /\ needed (ref_classdef fuel m t) = Ok c /\
    isinstance m c (g_class v) = Ok true /\ g_here v = true /\ complete m c (pid_path fuel m t) table index kp ks = Ok (table', i, Some kp', ks') /\
    weak_encode i kp' (g_key v) = Ok e /\ p' = PWeak f (Some e) (Some i) (Some kp') ks' (Some (g_key v)).
Proof.
  intros fuel m t table p v p' table' H. destruct p as [| | | | |f d index kp ks r|]; try discriminate. cbn [set_weak] in H.
  destruct (needed (ref_classdef fuel m t)) as [c|] eqn:C; [|discriminate]. cbn [bind] in H. destruct (isinstance m c (g_class v)) as [[]|] eqn:I; try discriminate. cbn [bind] in H. destruct (g_here v) eqn:G; [|discriminate].
  destruct (complete m c (pid_path fuel m t) table index kp ks) as [[[[t2 i] kp'] ks']|] eqn:X; [|discriminate]. cbn [bind] in H. destruct kp' as [kp'|]; [|discriminate]. cbn [num bind] in H.
  destruct (weak_encode i kp' (g_key v)) as [e|] eqn:E; [|discriminate]. cbn [bind] in H. injection H as <- <-. exists f, d, index, kp, ks, c, i, kp', ks', e. repeat split; auto.
Qed.

(** Setting a reference accepts exactly what the type allows: an object of the class or below it, of the
    same file, with a key of 16 or 32 bytes. The table then has the path under the index stored. *)
Theorem C68_accepts : forall m t c pids kp size table f d v, weak_type m t c pids -> is_a m (g_class v) c -> g_here v = true ->
  unique_key_pid m c = Ok (Some kp) -> 0 <= kp < 65536 -> unique_key_size m c = Ok size -> zlen (g_key v) = 16 \/ zlen (g_key v) = 32 -> zlen table < 65536 ->
  exists n, forall fuel, (n <= fuel)%nat -> exists i e table', set_weak fuel m t table (PWeak f d None None None None) v = Ok (PWeak f (Some e) (Some i) (Some kp) (Some size) (Some (g_key v)), table') /\
    weak_decode e = Ok (i, kp, zlen (g_key v), g_key v) /\ znth table' i = Some pids /\ extends table table'.
Proof.
  intros m t c pids kp size table f d v W A G U1 B U2 L T. pose proof W as (cid & path & root & K & C & Ro & Al). destruct (along_path _ _ _ _ Al) as [n P]. exists (S n). intros fuel F. destruct fuel as [|fuel]; [lia|].
  destruct (P (S fuel)) as [l El]; [lia|]. assert (PP : pid_path (S fuel) m t = Ok pids).
  { unfold pid_path, propertydef_path. rewrite K, Ro, El. cbn [bind]. f_equal. eapply path_along; eauto. }
  destruct (weakref_index table pids) as [table' i] eqn:X. pose proof (index_extends _ _ _ _ X) as [X1 X2].
  assert (I : 0 <= i < 65536). { unfold weakref_index in X. pose proof (index_of_spec table pids 0) as S. destruct (index_of pids table 0); injection X as <- <-.
    - destruct S as (a & b & -> & _ & ->). unfold zlen in *. rewrite app_length in T. cbn [List.length] in T. lia. - pose proof (zlen_nonneg _ table). lia. }
  assert (E : exists e, weak_encode i kp (g_key v) = Ok e).
  { unfold weak_encode. replace ((zlen (g_key v) =? 16) || (zlen (g_key v) =? 32)) with true by lia. rewrite (pack_total 2 i) by (change (256 ^ Z.of_nat 2) with 65536; lia). rewrite (pack_total 2 kp) by (change (256 ^ Z.of_nat 2) with 65536; lia).
    rewrite (pack_total 1) by (change (256 ^ Z.of_nat 1) with 256; lia). cbn [bind]. eauto. }
  destruct E as [e E]. exists i, e, table'. split; [|split; [apply (C32_weak_value _ _ _ _ E)|split; auto]].
  cbn [set_weak]. rewrite (class_found _ _ _ _ _ W). cbn [bind]. rewrite (isinstance_yes _ _ _ A). cbn [bind]. rewrite G. unfold complete. rewrite U1, U2. cbn [bind]. rewrite PP. cbn [bind]. rewrite X. cbn [bind num]. rewrite E. auto.
Qed.

(** ... and refuses an object of another class or another file. *)
Theorem C68_refused : forall fuel m t c pids table f d index kp ks r v, weak_type m t c pids ->
  (is_not_a m (g_class v) c -> set_weak (S fuel) m t table (PWeak f d index kp ks r) v = Err AssertionError) /\
  (is_a m (g_class v) c -> g_here v = false -> set_weak (S fuel) m t table (PWeak f d index kp ks r) v = Err AttachError).
Proof.
  intros fuel m t c pids table f d index kp ks r v W. unfold set_weak. rewrite (class_found _ _ _ _ _ W). cbn [bind]. split.
  - intros N. rewrite (isinstance_no _ _ _ N). auto.
  - intros A G. rewrite (isinstance_yes _ _ _ A), G. auto.
Qed.

(** A reference that was set leads to the object that has the key in the set the type names, in any
    state of the file reached later: whatever has been added to the table since, and whatever else
    the objects have become. *)
Theorem C68_set : forall fuel m t c pids table f d index kp ks r v p' table', weak_type m t c pids -> ordinary c -> index_ok table pids index ->
  set_weak fuel m t table (PWeak f d index kp ks r) v = Ok (p', table') ->
  extends table table' /\
  forall later root s o, extends table' later -> reaches root pids s -> in_set s (g_key v) o -> get_weak fuel m t root later p' = Ok (FObj o).
Proof.
  intros fuel m t c pids table f d index kp ks r v p' table' W [O1 O2] X H. apply set_weak_ok in H as (f' & d' & index' & kp1 & ks1 & c' & i & kp' & ks' & e & Ep & C & _ & _ & Co & _ & ->).
  injection Ep as <- <- <- <- <-. apply complete_ok in Co as [Ex Co]. split; auto. intros later root s o L R S. cbn [get_weak]. rewrite C. cbn [bind]. pose proof (class_is _ _ _ _ _ _ W C) as ->.
  unfold resolve, CLASSDEF, TYPEDEF. destruct (Z.eqb_spec (c_auid c) 0x0d01010101010100060e2b3402060101); [contradiction|]. destruct (Z.eqb_spec (c_auid c) 0x0d01010102030000060e2b3402060101); [contradiction|].
  assert (T : znth table' i = Some pids). { destruct index as [j|]; cbn in X. - destruct Co as [-> ->]. auto. - destruct Co as (l & P & T). rewrite (pid_path_is _ _ _ _ _ _ W P) in T. auto. }
  rewrite (resolve_ref_ok root later i (g_key v) pids s o); auto. eapply extends_znth; eauto.
Qed.

(** A reference whose key is not in the set is an error when it is read. *)
Theorem C68_dangling : forall fuel m t c pids table f d kp ks i key root d1 n nx lt k1 k2 items, weak_type m t c pids -> ordinary c ->
  znth table i = Some pids -> reaches root pids (PSet d1 n nx lt k1 k2 items) -> ~ In key (map fst items) ->
  get_weak (S fuel) m t root table (PWeak f d (Some i) kp ks (Some key)) = Err KeyError.
Proof.
  intros fuel m t c pids table f d kp ks i key root d1 n nx lt k1 k2 items W [O1 O2] T R N. cbn [get_weak]. rewrite (class_found _ _ _ _ _ W). cbn [bind].
  unfold resolve, CLASSDEF, TYPEDEF. destruct (Z.eqb_spec (c_auid c) 0x0d01010101010100060e2b3402060101); [contradiction|]. destruct (Z.eqb_spec (c_auid c) 0x0d01010102030000060e2b3402060101); [contradiction|].
  unfold resolve_ref, weakref_prop, item. rewrite T. cbn [bind]. rewrite (follow_reaches _ _ _ R). cbn [bind member]. rewrite (key_get_None _ _ _ N). auto.
Qed.

(** Nothing else is ever found: a reference that can be read leads to an object held under its key by the
    set at the end of the path the table has under its index. *)
Theorem C68_found : forall fuel m t c pids table root f d i kp ks key o, weak_type m t c pids -> ordinary c -> well_formed root ->
  get_weak fuel m t root table (PWeak f d (Some i) kp ks (Some key)) = Ok (FObj o) ->
  exists path s, znth table i = Some path /\ reaches root path s /\ in_set s key o.
Proof.
  intros fuel m t c pids table root f d i kp ks key o W [O1 O2] WF H. cbn [get_weak] in H. destruct (needed (ref_classdef fuel m t)) as [c'|] eqn:C; [|discriminate]. cbn [bind] in H. pose proof (class_is _ _ _ _ _ _ W C) as ->.
  unfold resolve, CLASSDEF, TYPEDEF in H. destruct (Z.eqb_spec (c_auid c) 0x0d01010101010100060e2b3402060101); [contradiction|]. destruct (Z.eqb_spec (c_auid c) 0x0d01010102030000060e2b3402060101); [contradiction|].
  unfold resolve_ref, weakref_prop, item in H. destruct (znth table i) as [path|] eqn:T; [|discriminate]. cbn [bind] in H. destruct (follow root path) as [s|] eqn:F; [|discriminate]. cbn [bind] in H.
  destruct (member s key) as [x|] eqn:M; [|discriminate]. cbn [bind] in H. injection H as ->. exists path, s. split; auto. clear T.
  assert (G : reaches root path s /\ prop_form well_formed s).
  { revert root WF F. induction path as [|pid path IH]; intros root WF F; [discriminate|]. destruct root as [cls ps]. pose proof WF as (N & _ & E). rewrite every_Forall in E. rewrite Forall_forall in E. destruct path as [|q path].
    - cbn [follow entry_at] in F. destruct (dict_get Z.eqb ps pid) as [x|] eqn:D; [|discriminate]. injection F as ->. apply dict_get_Some_in in D. split; [apply reaches_last; split; auto|apply (E _ D)].
    - change (follow (Obj cls ps) (pid :: q :: path)) with (do p <- entry_at (Obj cls ps) pid ;; do c <- object_of p ;; follow c (q :: path)) in F. cbn [entry_at] in F.
      destruct (dict_get Z.eqb ps pid) as [x|] eqn:D; [|discriminate]. cbn [bind] in F. apply dict_get_Some_in in D. specialize (E _ D). cbn [snd] in E. destruct x as [| |dd rr [cc|]| | | |]; try discriminate. cbn [object_of bind] in F.
      cbn [prop_form] in E. destruct E as (nn & _ & E). destruct (IH cc E F) as [R1 R2]. split; auto. eapply reaches_step; [|exact R1]. split; eauto. }
  destruct G as [R PF]. split; auto. destruct s as [| | | |sd sn sx sl sk ss items| |]; try discriminate. cbn [member] in M. cbn [prop_form] in PF. destruct PF as (nn & size & _ & _ & _ & _ & _ & ND & _).
  destruct (dict_get zlist_eqb items key) as [[num1 oo]|] eqn:D; [|discriminate]. injection M as ->. apply key_get_Some_in in D. cbn. eauto.
Qed.

(** Saving and reading: the reference is found again in what is read back, and leads to the object it led
    to before. *)
Inductive inside : obj -> prop -> Prop :=
| inside_here : forall c ps pid p, In (pid, p) ps -> inside (Obj c ps) p
| inside_ref : forall c ps pid d r o p, In (pid, PRef d r (Some o)) ps -> inside o p -> inside (Obj c ps) p
| inside_vec : forall c ps pid d n nx l items k o p, In (pid, PVec d n nx l items) ps -> In (k, o) items -> inside o p -> inside (Obj c ps) p
| inside_set : forall c ps pid d n nx l k1 k2 items key k o p, In (pid, PSet d n nx l k1 k2 items) ps -> In (key, (k, o)) items -> inside o p -> inside (Obj c ps) p.
Theorem C68_saved : forall names fuel m t c pids table f d index kp ks r v p' table' later root dir dir' b s o, weak_type m t c pids -> ordinary c -> index_ok table pids index ->
  set_weak fuel m t table (PWeak f d index kp ks r) v = Ok (p', table') -> extends table' later ->
  well_formed root -> inside root p' -> reaches root pids s -> in_set s (g_key v) o ->
  write_obj names dir root = Ok dir' -> Forall (Forall (fun v => 0 < v < 65536)) later -> table_write later = Ok b ->
  exists root' table2, read_obj names (depth root) dir' = Ok root' /\ table_read b = Ok table2 /\ inside root' p' /\ get_weak fuel m t root' table2 p' = Ok (FObj o).
Proof.
  intros names fuel m t c pids table f d index kp ks r v p' table' later root dir dir' b s o W O X H L WF I R S Wr Fo Tw. exists root, later.
  split; [eapply C63_roundtrip; eauto|]. split; [apply (proj1 (C35_table later Fo)); auto|]. split; auto. eapply C68_set; eauto.
Qed.

(** ** Arrays and sets of references *)

(** an array or set of references of type [e] *)
Definition array_type (m : meta) (t e : tdef) : Prop := exists el, (t_kind t = KVar el \/ t_kind t = KSet el) /\ type_of m el = Some e.
Lemma element_found : forall m t e, array_type m t e -> element_type m t = Ok e.
Proof. intros m t e (el & K & E). unfold element_type. destruct K as [-> | ->]; rewrite E; auto. Qed.

Lemma all_of_cons : forall A B (f : A -> result B) x r, all_of f (x :: r) = do y <- f x ;; do ys <- all_of f r ;; Ok (y :: ys).
Proof. auto. Qed.
Lemma check_each : forall m c l u, TreeModel.each (fun v (_ : unit) => do b <- isinstance m c (g_class v) ;; guard b else TypeError ;; guard g_here v else AttachError ;; Ok tt) l tt = Ok u ->
  Forall (fun v => isinstance m c (g_class v) = Ok true /\ g_here v = true) l.
Proof.
  intros m c. induction l as [|v l IH]; intros u H; auto. cbn in H. destruct (isinstance m c (g_class v)) as [[]|] eqn:I; try discriminate. cbn in H. destruct (g_here v) eqn:G; [|discriminate]. cbn in H. constructor; eauto.
Qed.
Lemma each_check : forall m c l, Forall (fun v => is_a m (g_class v) c /\ g_here v = true) l ->
  TreeModel.each (fun v (_ : unit) => do b <- isinstance m c (g_class v) ;; guard b else TypeError ;; guard g_here v else AttachError ;; Ok tt) l tt = Ok tt.
Proof.
  intros m c l H. induction H as [|v l [A G] F IH]; auto. cbn. rewrite (isinstance_yes _ _ _ A). cbn. rewrite G. cbn. exact IH.
Qed.
Lemma extend_ok : forall fuel m t name pid table f d n index kp ks refs g p' table', extend_weak fuel m t name pid table (PWeaks f d n index kp ks refs) g = Ok (p', table') ->
  exists e c d' n' i kp' ks', element_type m t = Ok e /\ needed (ref_classdef fuel m e) = Ok c /\ Forall (fun v => isinstance m c (g_class v) = Ok true /\ g_here v = true) (first_pass g) /\
    complete m c (pid_path fuel m e) table index kp ks = Ok (table', i, kp', ks') /\ p' = PWeaks f d' n' (Some i) kp' ks' (refs ++ map g_key (second_pass g)).
Proof.
  intros fuel m t name pid table f d n index kp ks refs g p' table' H. unfold extend_weak in H. destruct (element_type m t) as [e|] eqn:E; [|discriminate]. cbn [bind] in H.
  destruct (needed (ref_classdef fuel m e)) as [c|] eqn:C; [|discriminate]. cbn [bind] in H. destruct (TreeModel.each _ (first_pass g) tt) as [u|] eqn:F; [|discriminate]. cbn [bind] in H.
  destruct (match n with Some _ => Ok (d, n) | None => _ end) as [[d' n']|]; [|discriminate]. cbn [bind] in H. destruct (complete m c (pid_path fuel m e) table index kp ks) as [[[[t2 i] kp'] ks']|] eqn:X; [|discriminate]. cbn [bind] in H.
  injection H as <- <-. apply check_each in F. exists e, c, d', n', i, kp', ks'. repeat split; auto.
Qed.

(** Reading an array gives the objects of its references in order; after extending it, those of before
    followed by the new ones. *)
Theorem C68_array : forall fuel m t e c pids name pid table f d n index kp ks refs l p' table', array_type m t e -> weak_type m e c pids -> ordinary c -> index_ok table pids index ->
  extend_weak fuel m t name pid table (PWeaks f d n index kp ks refs) (Collection l) = Ok (p', table') ->
  extends table table' /\
  forall later root s before added, extends table' later -> reaches root pids s -> Forall2 (in_set s) refs before -> Forall2 (fun v o => in_set s (g_key v) o) l added ->
    get_weaks fuel m t root later p' = Ok (map FObj (before ++ added)).
Proof.
  intros fuel m t e c pids name pid table f d n index kp ks refs l p' table' A W [O1 O2] X H. apply extend_ok in H as (e' & c' & d' & n' & i & kp' & ks' & E & C & _ & Co & ->).
  rewrite (element_found _ _ _ A) in E. injection E as <-. pose proof (class_is _ _ _ _ _ _ W C) as ->. apply complete_ok in Co as [Ex Co]. split; auto. intros later root s before added L R F1 F2. cbn [get_weaks second_pass].
  assert (T : znth later i = Some pids). { apply (extends_znth table'); auto. destruct index as [j|]; cbn in X. - destruct Co as [-> ->]. auto. - destruct Co as (q & P & T). rewrite (pid_path_is _ _ _ _ _ _ W P) in T. auto. }
  assert (F : Forall2 (in_set s) (refs ++ map g_key l) (before ++ added)). { apply Forall2_app; auto. clear - F2. induction F2; cbn [map]; auto. }
  clear - F A C T R O1 O2. induction F as [|k o ks os S F IH]; auto. rewrite all_of_cons. cbn [map]. rewrite (element_found _ _ _ A). cbn [bind]. rewrite C. cbn [bind].
  unfold resolve at 1, CLASSDEF, TYPEDEF. destruct (Z.eqb_spec (c_auid c) 0x0d01010101010100060e2b3402060101); [contradiction|]. destruct (Z.eqb_spec (c_auid c) 0x0d01010102030000060e2b3402060101); [contradiction|].
  rewrite (resolve_ref_ok root later i k pids s o); auto. cbn [bind]. rewrite (element_found _ _ _ A) in IH. cbn [bind] in IH. rewrite C in IH. cbn [bind] in IH. rewrite IH. auto.
Qed.

(** Assigning a collection replaces the references: the array then reads as the collection. *)
Theorem C68_assign : forall fuel m t e c pids name pid table f d n index kp ks refs l p' table', array_type m t e -> weak_type m e c pids -> ordinary c -> index_ok table pids index ->
  assign_weak fuel m t name pid table (PWeaks f d n index kp ks refs) (Collection l) = Ok (p', table') ->
  forall later root s os, extends table' later -> reaches root pids s -> Forall2 (fun v o => in_set s (g_key v) o) l os ->
    get_weaks fuel m t root later p' = Ok (map FObj os) /\
    forall v o, In v l -> in_set s (g_key v) o -> item_weak fuel m t root later p' (g_key v) = Ok (FObj o).
Proof.
  intros fuel m t e c pids name pid table f d n index kp ks refs l p' table' A W O X H later root s os L R F. split.
  - destruct (C68_array _ _ _ _ _ _ _ _ _ _ _ _ _ _ _ _ _ _ _ A W O X H) as [_ G]. apply (G later root s [] os); auto.
  - intros v o I S. unfold assign_weak, clear_weak in H. apply extend_ok in H as (e' & c' & d' & n' & i & kp' & ks' & E & C & _ & Co & ->). cbn [item_weak app second_pass].
    replace (existsb (zlist_eqb (g_key v)) (map g_key l)) with true.
    2:{ symmetry. apply existsb_exists. exists (g_key v). split; [apply in_map; auto|apply zlist_eqb_refl]. }
    rewrite E. cbn [bind]. rewrite C. cbn [bind]. rewrite (element_found _ _ _ A) in E. injection E as <-. pose proof (class_is _ _ _ _ _ _ W C) as ->. destruct O as [O1 O2].
    unfold resolve, CLASSDEF, TYPEDEF. destruct (Z.eqb_spec (c_auid c) 0x0d01010101010100060e2b3402060101); [contradiction|]. destruct (Z.eqb_spec (c_auid c) 0x0d01010102030000060e2b3402060101); [contradiction|].
    apply complete_ok in Co as [Ex Co]. rewrite (resolve_ref_ok root later i (g_key v) pids s o); auto. apply (extends_znth table'); auto.
    destruct index as [j|]; cbn in X. + destruct Co as [-> ->]. auto. + destruct Co as (q & P & T). rewrite (pid_path_is _ _ _ _ _ _ W P) in T. auto.
Qed.

(** Extending succeeds if every element is an object of the class and the file; with one that is not it is refused. *)
Theorem C68_array_accepts : forall m t e c pids kp size name pid table f d n i kp' ks' refs l, array_type m t e -> weak_type m e c pids ->
  Forall (fun v => is_a m (g_class v) c /\ g_here v = true) l -> unique_key_pid m c = Ok kp -> unique_key_size m c = Ok size -> (exists x, encode_utf16le (mangle_name name pid 22) = Ok x) ->
  exists fuel0, forall fuel, (fuel0 <= fuel)%nat -> exists p' table', extend_weak fuel m t name pid table (PWeaks f d n i kp' ks' refs) (Collection l) = Ok (p', table').
Proof.
  intros m t e c pids kp size name pid table f d n i kp' ks' refs l A W F U1 U2 [x N]. pose proof W as (cid & path & root & K & C & Ro & Al). destruct (along_path _ _ _ _ Al) as [n0 P]. exists (S n0). intros fuel L. destruct fuel as [|fuel]; [lia|].
  destruct (P (S fuel)) as [q El]; [lia|]. assert (PP : pid_path (S fuel) m e = Ok pids).
  { unfold pid_path, propertydef_path. rewrite K, Ro, El. cbn [bind]. f_equal. eapply path_along; eauto. }
  unfold extend_weak. rewrite (element_found _ _ _ A). cbn [bind]. rewrite (class_found _ _ _ _ _ W). cbn [bind first_pass]. rewrite (each_check _ _ _ F). cbn [bind]. cbv zeta. rewrite N. cbn [bind].
  destruct n; cbn [bind]; unfold complete; rewrite U1, U2, PP; cbn [bind]; destruct kp', ks', i; cbn [bind]; try (destruct (weakref_index table pids)); cbn [bind]; eauto.
Qed.
Theorem C68_array_refused : forall fuel m t e c pids name pid table f d n i kp ks refs a v b, array_type m t e -> weak_type m e c pids ->
  Forall (fun v => is_a m (g_class v) c /\ g_here v = true) a ->
  (is_not_a m (g_class v) c -> extend_weak (S fuel) m t name pid table (PWeaks f d n i kp ks refs) (Collection (a ++ v :: b)) = Err TypeError) /\
  (is_a m (g_class v) c -> g_here v = false -> extend_weak (S fuel) m t name pid table (PWeaks f d n i kp ks refs) (Collection (a ++ v :: b)) = Err AttachError).
Proof.
  intros fuel m t e c pids name pid table f d n i kp ks refs a v b A W F. unfold extend_weak. rewrite (element_found _ _ _ A). cbn [bind]. rewrite (class_found _ _ _ _ _ W). cbn [bind first_pass].
  assert (G : forall x, TreeModel.each (fun v (_ : unit) => do b <- isinstance m c (g_class v) ;; guard b else TypeError ;; guard g_here v else AttachError ;; Ok tt) (v :: b) tt = Err x ->
    TreeModel.each (fun v (_ : unit) => do b <- isinstance m c (g_class v) ;; guard b else TypeError ;; guard g_here v else AttachError ;; Ok tt) (a ++ v :: b) tt = Err x).
  { intros x Hx. clear - F Hx. induction F as [|y a [Y1 Y2] F IH]; auto. cbn. rewrite (isinstance_yes _ _ _ Y1). cbn. rewrite Y2. cbn. exact IH. }
  split.
  - intros N. rewrite (G TypeError); auto. cbn. rewrite (isinstance_no _ _ _ N). auto.
  - intros Y Hf. rewrite (G AttachError); auto. cbn. rewrite (isinstance_yes _ _ _ Y). cbn. rewrite Hf. auto.
Qed.

(** An array that has a name keeps it; otherwise it gets the one made of the property's name. What is known of the
    target stays, the rest is taken from the class: saving (C63) then writes the keys that were given. *)
Theorem C68_array_form : forall fuel m t e c pids name pid table f d n i kp ks refs l f' d' n' i' kp' ks' refs' table', array_type m t e -> weak_type m e c pids ->
  extend_weak fuel m t name pid table (PWeaks f d n i kp ks refs) (Collection l) = Ok (PWeaks f' d' n' i' kp' ks' refs', table') ->
  f' = f /\ refs' = refs ++ map g_key l /\ match n with Some _ => n' = n /\ d' = d | None => n' = Some (mangle_name name pid 22) /\ exists x, encode_utf16le (mangle_name name pid 22) = Ok x /\ d' = Some x end /\
  match i with Some _ => i' = i /\ table' = table | None => exists j, i' = Some j /\ znth table' j = Some pids end /\
  match kp with Some _ => kp' = kp | None => unique_key_pid m c = Ok kp' end /\ match ks with Some _ => ks' = ks | None => exists x, ks' = Some x /\ unique_key_size m c = Ok x end.
Proof.
  intros fuel m t e c pids name pid table f d n i kp ks refs l f' d' n' i' kp' ks' refs' table' A W H. unfold extend_weak in H. rewrite (element_found _ _ _ A) in H. cbn [bind] in H.
  destruct (needed (ref_classdef fuel m e)) as [c'|] eqn:C; [|discriminate]. cbn [bind] in H. pose proof (class_is _ _ _ _ _ _ W C) as ->. destruct (TreeModel.each _ (first_pass _) tt) as [u|]; [|discriminate]. cbn [bind] in H.
  destruct (match n with Some _ => Ok (d, n) | None => _ end) as [[d2 n2]|] eqn:N; [|discriminate]. cbn [bind] in H. destruct (complete m c (pid_path fuel m e) table i kp ks) as [[[[t2 j] kp2] ks2]|] eqn:X; [|discriminate]. cbn [bind second_pass] in H.
  injection H as <- <- <- <- <- <- <- <-. split; auto. split; auto. split.
  { destruct n as [x|]; [injection N as <- <-; auto|]. cbv zeta in N. destruct (encode_utf16le (mangle_name name pid 22)) as [y|] eqn:Y; [|discriminate]. cbn [bind] in N. injection N as <- <-. split; auto. eauto. }
  pose proof (complete_ok _ _ _ _ _ _ _ _ _ _ _ X) as [_ Y]. split.
  { destruct i as [i|]; [destruct Y as [-> ->]; auto|]. destruct Y as (q & P & T). rewrite (pid_path_is _ _ _ _ _ _ W P) in T. eauto. }
  unfold complete in X. split.
  - destruct kp as [kp|]; cbn [bind] in X; [|destruct (unique_key_pid m c) as [k|]; [|discriminate]; cbn [bind] in X]; (destruct (match ks with Some _ => Ok ks | None => _ end); [|discriminate]); cbn [bind] in X; (destruct i; [|destruct (pid_path fuel m e); [|discriminate]; cbn [bind] in X; destruct (weakref_index table a0)]); injection X; intros; subst; auto.
  - destruct (match kp with Some _ => Ok kp | None => _ end); [|discriminate]. cbn [bind] in X. destruct ks as [ks|]; cbn [bind] in X; [|destruct (unique_key_size m c) as [k|]; [|discriminate]; cbn [bind] in X]; (destruct i; [|destruct (pid_path fuel m e); [|discriminate]; cbn [bind] in X; destruct (weakref_index table a0)]); injection X; intros; subst; eauto.
Qed.
(** A key that is not among the references is not looked up. *)
Theorem C68_item_missing : forall fuel m t root table f d n i kp ks refs key, ~ In key refs -> item_weak fuel m t root table (PWeaks f d n i kp ks refs) key = Err KeyError.
Proof.
  intros fuel m t root table f d n i kp ks refs key N. cbn [item_weak]. destruct (existsb (zlist_eqb key) refs) eqn:X; auto. apply existsb_exists in X as (k & I & X). apply zlist_eqb_spec in X. subst. contradiction.
Qed.
(** Setting a reference again changes nothing but the key. *)
Theorem C68_again : forall fuel m t table f d i kp ks r v p' table', set_weak fuel m t table (PWeak f d (Some i) (Some kp) (Some ks) r) v = Ok (p', table') ->
  table' = table /\ exists e, p' = PWeak f (Some e) (Some i) (Some kp) (Some ks) (Some (g_key v)) /\ weak_decode e = Ok (i, kp, zlen (g_key v), g_key v).
Proof.
  intros fuel m t table f d i kp ks r v p' table' H. apply set_weak_ok in H as (f' & d' & index' & kp1 & ks1 & c' & i' & kp' & ks' & e & Ep & _ & _ & _ & Co & E & ->). injection Ep as <- <- <- <- <-. cbn in Co. injection Co as <- <- <- <-.
  split; auto. exists e. split; auto. apply (C32_weak_value _ _ _ _ E).
Qed.

(** ** The built-in reference types *)
Definition step_check (m : meta) (x : cdef * pdef) : bool :=
  nodupb Z.eqb (map p_auid (props (fst x))) && match type_of m (p_type (snd x)) with Some t => match ref_classdef 12 m t with Ok (Some _) => true | _ => false end | None => false end.
Definition weak_check (m : meta) (t : tdef) : bool :=
  match t_kind t with
  | KWeak cid path =>
    match class_of m cid, class_named m "Root", propertydef_path 12 m path with
    | Some c, Some _, Ok (x :: l) => forallb (step_check m) (x :: l) && forallb (fun y => (0 <? p_pid (snd y)) && (p_pid (snd y) <? 65536)) (x :: l) &&
        match unique_key_pid m c, unique_key_size m c with Ok (Some k), Ok s => (0 <=? k) && (k <? 65536) && ((s =? 16) || (s =? 32)) | _, _ => false end &&
        negb (c_auid c =? 0x0d01010101010100060e2b3402060101)
    | _, _, _ => false
    end
  | _ => true
  end.
Lemma weak_checked : both (types_forall weak_check).
Proof. split; vm_compute; reflexivity. Qed.
Lemma along_checked : forall m path c l, l <> [] -> path_from 12 m (Some c) path = Ok l -> forallb (step_check m) l = true -> along m c path (map (fun x => p_pid (snd x)) l).
Proof.
  intros m. induction path as [|a path IH]; intros c l N H F; cbn [path_from] in H; [injection H as <-; congruence|].
  destruct (find _ (props c)) as [p|] eqn:Fi; [|discriminate]. apply find_some in Fi as [I Fi]. apply Z.eqb_eq in Fi. subst a. destruct (type_of m (p_type p)) as [t|] eqn:T; [|discriminate].
  destruct (ref_classdef 12 m t) as [k|] eqn:R; [|discriminate]. cbn [bind] in H. destruct (path_from 12 m k path) as [r|] eqn:P; [|discriminate]. cbn [bind] in H. injection H as <-. cbn [forallb] in F. apply andb_prop in F as [F1 F2].
  unfold step_check in F1. cbn [fst snd] in F1. apply andb_prop in F1 as [D1 D2]. rewrite T, R in D2. destruct k as [k|]; [|discriminate]. apply ref_classdef_refers in R. apply nodupZ in D1.
  assert (U : forall q, In q (props c) -> p_auid q = p_auid p -> q = p) by (intros q Q E; eapply NoDup_map_inj; eauto).
  cbn [map snd]. destruct path as [|b path]. { cbn in P. injection P as <-. eapply along_last; eauto. }
  eapply along_step; eauto. apply IH; auto. cbn [path_from] in P. destruct (find _ (props k)); [|discriminate]. destruct (type_of m (p_type p0)); [|discriminate]. destruct (ref_classdef 12 m t0); [|discriminate]. cbn [bind] in P. destruct (path_from 12 m a path); [|discriminate]. cbn [bind] in P. injection P as <-. discriminate.
Qed.

(** Every reference type of the model meets what the theorems above ask of a type. *)
Theorem C68_builtin : forall m, built_in m -> forall t cid path, registered m t -> t_kind t = KWeak cid path ->
  exists c pids kp size, weak_type m t c pids /\ c_auid c <> 0x0d01010101010100060e2b3402060101 /\ unique_key_pid m c = Ok (Some kp) /\ 0 <= kp < 65536 /\ unique_key_size m c = Ok size /\ (size = 16 \/ size = 32) /\
    Forall (fun v => 0 < v < 65536) pids.
Proof.
  intros m H t cid path R K. pose proof (registered_by m _ (both_ok _ weak_checked m H) t R) as B. clear H R. unfold weak_check in B. rewrite K in B.
  destruct (class_of m cid) as [c|] eqn:C; [|discriminate]. destruct (class_named m "Root") as [root|] eqn:Ro; [|discriminate]. destruct (propertydef_path 12 m path) as [[|x l]|] eqn:P; try discriminate.
  apply andb_prop in B as [B N]. apply andb_prop in B as [B U]. apply andb_prop in B as [B1 B2]. destruct (unique_key_pid m c) as [[kp|]|] eqn:U1; try discriminate. destruct (unique_key_size m c) as [s|] eqn:U2; [|discriminate].
  unfold propertydef_path in P. rewrite Ro in P. exists c, (map (fun x => p_pid (snd x)) (x :: l)), kp, s. split.
  { exists cid, path, root. repeat split; auto. apply along_checked; auto. discriminate. }
  split. { intros E. rewrite E in N. discriminate. } split; auto. split; [lia|]. split; auto. split; [lia|]. rewrite Forall_map. rewrite forallb_forall in B2. rewrite Forall_forall. intros y I. specialize (B2 y I). cbn beta in B2. lia.
Qed.

(** References to type definitions are found in the meta dictionary, whatever the objects are. *)
Theorem C68_types : forall fuel m t c pids root table f d i kp ks key, weak_type m t c pids -> c_auid c = 0x0d01010102030000060e2b3402060101 -> 
  get_weak (S fuel) m t root table (PWeak f d i kp ks (Some key)) = Ok (FType (type_of m (auid_int key))).
Proof. intros fuel m t c pids root table f d i kp ks key W E. cbn [get_weak]. rewrite (class_found _ _ _ _ _ W). cbn [bind]. unfold resolve. rewrite E. auto. Qed.

(** ** What does not hold *)

(** Setting does not look into the set: a reference to an object that is in no set is accepted, and
    reading it back is an error. *)
Theorem C68_unattached_refuted : forall m, built_in m -> forall t cid path c pids v f d table root d1 n nx lt k1 k2 items, registered m t -> t_kind t = KWeak cid path -> weak_type m t c pids -> ordinary c ->
  is_a m (g_class v) c -> g_here v = true -> zlen (g_key v) = 16 \/ zlen (g_key v) = 32 -> zlen table < 65536 -> reaches root pids (PSet d1 n nx lt k1 k2 items) -> ~ In (g_key v) (map fst items) ->
  exists fuel p' table', set_weak fuel m t table (PWeak f d None None None None) v = Ok (p', table') /\ get_weak fuel m t root table' p' = Err KeyError.
Proof.
  intros m H t cid path c pids v f d table root d1 n nx lt k1 k2 items R K W O A G L T Re N. destruct (C68_builtin m H t cid path R K) as (c' & pids' & kp & size & W' & _ & U1 & B & U2 & _ & _). clear H R.
  assert (c' = c). { destruct W as (x & y & z & X & Y & _), W' as (x' & y' & z' & X' & Y' & _). congruence. } subst c'.
  destruct (C68_accepts m t c pids kp size table f d v W A G U1 B U2 L T) as [n0 P]. destruct (P (S n0)) as (i & e & table' & E & _ & Ti & _); [lia|]. exists (S n0), (PWeak f (Some e) (Some i) (Some kp) (Some size) (Some (g_key v))), table'. split; auto.
  exact (C68_dangling n0 m t c pids table' f (Some e) (Some kp) (Some size) i (g_key v) root d1 n nx lt k1 k2 items W O Ti Re N).
Qed.

(** extend goes through its argument twice: given an iterator, it checks the elements and adds none. *)
Theorem C68_iterator_refuted : forall fuel m t name pid table f d n i kp ks refs l p' table', extend_weak fuel m t name pid table (PWeaks f d n i kp ks refs) (Collection l) = Ok (p', table') ->
  exists p2, extend_weak fuel m t name pid table (PWeaks f d n i kp ks refs) (Iterator l) = Ok (p2, table') /\ match p2 with PWeaks _ _ _ _ _ _ r => r = refs | _ => False end.
Proof.
  intros fuel m t name pid table f d n i kp ks refs l p' table' H. unfold extend_weak in *. cbn [first_pass second_pass] in *. destruct (element_type m t) as [e|]; [|discriminate]. cbn [bind] in *.
  destruct (needed (ref_classdef fuel m e)) as [c|]; [|discriminate]. cbn [bind] in *. destruct (TreeModel.each _ l tt) as [u|]; [|discriminate]. cbn [bind] in *.
  destruct (match n with Some _ => Ok (d, n) | None => _ end) as [[d' n']|]; [|discriminate]. cbn [bind] in *. destruct (complete m c (pid_path fuel m e) table i kp ks) as [[[[t2 j] kp'] ks']|]; [|discriminate]. cbn [bind] in *.
  injection H as <- <-. eexists. split; eauto. cbn. rewrite app_nil_r. auto.
Qed.

(** A set of references takes the same object twice, and then reads as holding it twice. *)
Theorem C68_duplicate_refuted : forall fuel m t e c pids name pid table d v p' table', array_type m t e -> weak_type m e c pids -> ordinary c ->
  extend_weak fuel m t name pid table (PWeaks 26 d None None None None []) (Collection [v; v]) = Ok (p', table') ->
  forall root s o, reaches root pids s -> in_set s (g_key v) o -> get_weaks fuel m t root table' p' = Ok [FObj o; FObj o].
Proof.
  intros fuel m t e c pids name pid table d v p' table' A W O H root s o R S. destruct (C68_array _ _ _ _ _ _ _ _ _ _ _ _ _ _ _ _ _ _ _ A W O (I : index_ok table pids None) H) as [_ G].
  apply (G table' root s [] [o; o]); auto. exists []. rewrite app_nil_r. auto.
Qed.

(** References to property definitions cannot be read: their path goes through the set of the class
    definitions, and a set has no properties. *)
Theorem C68_property_refuted : forall m, built_in m -> exists t c, registered m t /\ t_name t = "PropertyDefinitionWeakReference"%string /\ weak_type m t c [1; 3; 9] /\
  forall fuel root table f d i kp ks key d1 n nx lt k1 k2 items o, znth table i = Some [1; 3; 9] -> reaches root [1; 3] (PSet d1 n nx lt k1 k2 items) ->
    get_weak fuel m t root table (PWeak f d (Some i) kp ks (Some key)) <> Ok (FObj o).
Proof.
  intros m H.
  assert (B : both (fun m => match type_of m 0x05010c0000000000060e2b3401040101 with
    | Some t => String.eqb (t_name t) "PropertyDefinitionWeakReference" && match t_kind t with KWeak _ _ => true | _ => false end && match pid_path 12 m t with Ok [a; b; c] => (a =? 1) && (b =? 3) && (c =? 9) | _ => false end
    | None => false end)) by (split; vm_compute; reflexivity).
  pose proof (both_ok _ B m H) as Q. clear B. cbn beta in Q. destruct (type_of m 0x05010c0000000000060e2b3401040101) as [t|] eqn:T; [|discriminate Q]. apply andb_prop in Q as [Q Q3]. apply andb_prop in Q as [Q1 Q2]. apply String.eqb_eq in Q1.
  destruct (t_kind t) as [| | | | | | | | | | | | | | |cid path] eqn:K; try discriminate Q2. assert (R : registered m t) by (eexists; exact T).
  destruct (C68_builtin m H t cid path R K) as (c & pids & kp0 & size & W & _). clear H. destruct (pid_path 12 m t) as [l|] eqn:P; [|discriminate Q3]. pose proof (pid_path_is _ _ _ _ _ _ W P) as ->.
  destruct pids as [|x [|y [|z [|? ?]]]]; try discriminate Q3. apply andb_prop in Q3 as [Q3 Q6]. apply andb_prop in Q3 as [Q4 Q5]. apply Z.eqb_eq in Q4, Q5, Q6. subst x y z.
  exists t, c. split; auto. split; auto. split; auto. intros fuel root table f d i kp ks key d1 n nx lt k1 k2 items o Ti Re E. cbn [get_weak] in E. destruct (needed (ref_classdef fuel m t)) as [c'|]; [|discriminate]. cbn [bind] in E.
  unfold resolve in E. destruct (c_auid c' =? CLASSDEF); [discriminate|]. destruct (c_auid c' =? TYPEDEF); [discriminate|]. unfold resolve_ref, weakref_prop, item in E. rewrite Ti in E. cbn [bind] in E.
  inversion Re as [|? ? ? ? ? ? ? H1 H2]; subst. inversion H2 as [? ? ? H3|? ? ? ? ? ? ? ? H3]; subst; [|inversion H3]. cbn [follow] in E. rewrite (entry_has _ _ _ H1) in E. cbn [bind object_of] in E. rewrite (entry_has _ _ _ H3) in E. discriminate.
Qed.

(** The constant that is to recognise references to class definitions is the identifier of
    InterchangeObject. So a class the meta dictionary knows is looked for in the stored set, and is not found if it
    is not stored; *)
Theorem C68_classes_refuted : forall m, built_in m -> exists t c, registered m t /\ t_name t = "ClassDefinitionWeakReference"%string /\ c_name c = "ClassDefinition"%string /\ weak_type m t c [1; 3] /\
  forall fuel root table f d i kp ks key d1 n nx lt k1 k2 items, znth table i = Some [1; 3] -> reaches root [1; 3] (PSet d1 n nx lt k1 k2 items) -> ~ In key (map fst items) ->
    get_weak (S fuel) m t root table (PWeak f d (Some i) kp ks (Some key)) = Err KeyError.
Proof.
  intros m H.
  assert (B : both (fun m => match type_of m 0x0501010000000000060e2b3401040101 with
    | Some t => String.eqb (t_name t) "ClassDefinitionWeakReference" && match t_kind t with KWeak cid _ => match class_of m cid with Some c => String.eqb (c_name c) "ClassDefinition" && negb (c_auid c =? TYPEDEF) | None => false end | _ => false end && match pid_path 12 m t with Ok [a; b] => (a =? 1) && (b =? 3) | _ => false end
    | None => false end)) by (split; vm_compute; reflexivity).
  pose proof (both_ok _ B m H) as Q. clear B. cbn beta in Q. destruct (type_of m 0x0501010000000000060e2b3401040101) as [t|] eqn:T; [|discriminate Q]. apply andb_prop in Q as [Q Q3]. apply andb_prop in Q as [Q1 Q2]. apply String.eqb_eq in Q1.
  destruct (t_kind t) as [| | | | | | | | | | | | | | |cid path] eqn:K; try discriminate Q2. assert (R : registered m t) by (eexists; exact T).
  destruct (C68_builtin m H t cid path R K) as (c & pids & kp0 & size & W & N & _). clear H. destruct (pid_path 12 m t) as [l|] eqn:P; [|discriminate Q3]. pose proof (pid_path_is _ _ _ _ _ _ W P) as ->.
  destruct pids as [|x [|y [|? ?]]]; try discriminate Q3. apply andb_prop in Q3 as [Q4 Q5]. apply Z.eqb_eq in Q4, Q5. subst x y.
  assert (C : class_of m cid = Some c). { destruct W as (x & y & z & X & Y & _). congruence. } rewrite C in Q2. apply andb_prop in Q2 as [Q2 Q6]. apply String.eqb_eq in Q2.
  exists t, c. split; auto. split; auto. split; auto. split; auto. intros. eapply C68_dangling; eauto. split; auto. intros E. rewrite E in Q6. discriminate Q6.
Qed.
(** ... and a reference to interchange objects in general leads to a class definition or to nothing, never to
    the object. *)
Theorem C68_interchange_refuted : forall fuel m t c pids root table f d i kp ks key, weak_type m t c pids -> c_auid c = 0x0d01010101010100060e2b3402060101 ->
  get_weak (S fuel) m t root table (PWeak f d i kp ks (Some key)) = Ok (FClass (class_of m (auid_int key))).
Proof. intros fuel m t c pids root table f d i kp ks key W E. cbn [get_weak]. rewrite (class_found _ _ _ _ _ W). cbn [bind]. unfold resolve. rewrite E. auto. Qed.

(** ** A file with two data definitions *)
Definition key_a : list Z := repeat 1 16.
Definition key_b : list Z := repeat 2 16.
Definition def_a : obj := Obj 11 [(6913, PData 130 (Some key_a))].
Definition def_b : obj := Obj 12 [(6913, PData 130 (Some key_b))].
Definition the_set : prop := PSet (Some (flat_map (fun c => [c; 0]) (codes "DataDefinitions") ++ [0; 0])) (Some (codes "DataDefinitions")) 2 0 (Some 6913) (Some 16) [(key_a, (0, def_a)); (key_b, (1, def_b))].
Definition ref_to (n : string) (o : obj) : prop := PRef (Some (flat_map (fun c => [c; 0]) (codes n) ++ [0; 0])) (Some (codes n)) (Some o).
Definition the_root : obj := Obj 1 [(2, ref_to "Header" (Obj 2 [(15108, ref_to "Dictionary" (Obj 3 [(9733, the_set)]))]))].
Lemma root_reaches : reaches the_root [2; 15108; 9733] the_set.
Proof. eapply reaches_step; [split; [left; reflexivity|repeat constructor; intros []]|]. eapply reaches_step; [split; [left; reflexivity|repeat constructor; intros []]|]. apply reaches_last. split; [left; reflexivity|repeat constructor; intros []]. Qed.
Lemma set_has : in_set the_set key_a def_a /\ in_set the_set key_b def_b.
Proof. split; (split; [repeat constructor; cbn; [intros [E|[]]; discriminate E|intros []]|]); [exists 0; left; auto|exists 1; right; left; auto]. Qed.
Definition weak_b : prop := PWeak 2 (Some ([1; 0; 1; 27; 16] ++ key_b)) (Some 1) (Some 6913) (Some 16) (Some key_b).
Definition DATA_REF : Z := 0x0501030000000000060e2b3401040101.
Definition DATA_SET : Z := 0x05030d0000000000060e2b3401040101.
Definition case_check (m : meta) : bool :=
  match type_of m DATA_REF, type_of m DATA_SET with
  | Some t, Some u => match t_kind t, t_kind u with
    | KWeak cid _, KSet el => (el =? DATA_REF) && match class_of m cid with
      | Some c => negb (c_auid c =? TYPEDEF) &&
         match pid_path 12 m t with Ok l => zlist_eqb l [2; 15108; 9733] | Err _ => false end &&
         match relatives m c with Ok (_ :: _) => true | _ => false end &&
         match set_weak 12 m t [[9]] (PWeak 2 None None None None None) (Target c true key_b) with Ok (PWeak f (Some e) (Some i) (Some kp) (Some ks) (Some k), [a; b]) => zlist_eqb a [9] && zlist_eqb b [2; 15108; 9733] && zlist_eqb e ([1; 0; 1; 27; 16] ++ key_b) && zlist_eqb k key_b && zlist_eqb [f; i; kp; ks] [2; 1; 6913; 16] | _ => false end &&
         match extend_weak 12 m u (codes "Defs") 7 [[9]] (PWeaks 26 None None None None None []) (Collection [Target c true key_b; Target c true key_a]) with Ok _ => true | Err _ => false end
      | None => false end
    | _, _ => false end
  | _, _ => false
  end.
Lemma holds_ex : forall r chk, holds r chk = true -> exists m, r = Ok m /\ chk m = true.
Proof. intros [m|] chk H; [exists m; auto|discriminate]. Qed.
Example C68_case : exists m t u c p table1 q table2, built_in m /\ registered m t /\ weak_type m t c [2; 15108; 9733] /\ array_type m u t /\ ordinary c /\ is_a m c c /\
  set_weak 12 m t [[9]] (PWeak 2 None None None None None) (Target c true key_b) = Ok (p, table1) /\ p = weak_b /\ table1 = [[9]; [2; 15108; 9733]] /\
  get_weak 12 m t the_root (table1 ++ [[5; 6]]) p = Ok (FObj def_b) /\
  extend_weak 12 m u (codes "Defs") 7 [[9]] (PWeaks 26 None None None None None []) (Collection [Target c true key_b; Target c true key_a]) = Ok (q, table2) /\
  get_weaks 12 m u the_root table2 q = Ok [FObj def_b; FObj def_a].
Proof.
  assert (B : holds base_model case_check = true) by (vm_compute; reflexivity). apply holds_ex in B as (m & H & Q). exists m.
  assert (BI : built_in m) by (left; exact H). clear H. unfold case_check in Q. destruct (type_of m DATA_REF) as [t|] eqn:T; [|discriminate Q]. destruct (type_of m DATA_SET) as [u|] eqn:U; [|discriminate Q].
  destruct (t_kind t) as [| | | | | | | | | | | | | | |cid path] eqn:K; try discriminate Q. destruct (t_kind u) as [| | | | | | | | | | | | |el| |] eqn:Ku; try discriminate Q. apply andb_prop in Q as [Q0 Q]. apply Z.eqb_eq in Q0. subst el.
  destruct (class_of m cid) as [c|] eqn:C; [|discriminate Q]. apply andb_prop in Q as [Q Q5]. apply andb_prop in Q as [Q Q4]. apply andb_prop in Q as [Q Q3]. apply andb_prop in Q as [Q1 Q2].
  assert (R : registered m t) by (eexists; exact T). destruct (C68_builtin m BI t cid path R K) as (c' & pids & kp & size & W & N & _).
  assert (c' = c). { destruct W as (x & y & z & X & Y & _). congruence. } subst c'. destruct (pid_path 12 m t) as [l|] eqn:P; [|discriminate Q2]. pose proof (pid_path_is _ _ _ _ _ _ W P) as ->. apply zlist_eqb_spec in Q2. subst pids.
  destruct (relatives m c) as [l|] eqn:Re; [|discriminate Q3]. assert (IA : is_a m c c). { apply relatives_iff, chain_lineage in Re. exists l, c. split; auto. split; auto. inversion Re; left; auto. }
  destruct (set_weak 12 m t [[9]] _ _) as [[p table1]|] eqn:S; [|discriminate Q4]. destruct p as [| | | | |f [e|] [i|] [kp1|] [ks|] [k|]|]; try discriminate Q4. destruct table1 as [|a [|b [|? ?]]]; try discriminate Q4. apply andb_prop in Q4 as [Q4 Q9]. apply andb_prop in Q4 as [Q4 Q8]. apply andb_prop in Q4 as [Q4 Q7]. apply andb_prop in Q4 as [Q4 Q6]. apply zlist_eqb_spec in Q4, Q6, Q7, Q8, Q9. injection Q9 as -> -> -> ->. subst a b e k.
  destruct (extend_weak 12 m u _ _ _ _ _) as [[q table2]|] eqn:E; [|discriminate Q5].
  assert (O : ordinary c). { split; auto. intros X. rewrite X in Q1. discriminate Q1. } assert (A : array_type m u t) by (exists DATA_REF; auto).
  exists t, u, c, weak_b, [[9]; [2; 15108; 9733]], q, table2. split; [exact BI|]. clear BI. split; [exact R|]. split; [exact W|]. split; [exact A|]. split; [exact O|]. split; [exact IA|]. split; [exact S|]. split; [reflexivity|]. split; [reflexivity|]. split.
  - destruct (C68_set _ _ _ _ _ _ _ _ _ _ _ _ _ _ _ W O (I : index_ok [[9]] [2; 15108; 9733] None) S) as [_ G]. apply (G _ _ the_set). { exists [[5; 6]]. auto. } { exact root_reaches. } { apply set_has. }
  - split; [exact E|]. destruct (C68_array _ _ _ _ _ _ _ _ _ _ _ _ _ _ _ _ _ _ _ A W O (I : index_ok [[9]] [2; 15108; 9733] None) E) as [_ G].
    apply (G table2 the_root the_set [] [def_b; def_a]). { exists []. rewrite app_nil_r. auto. } { exact root_reaches. } { constructor. } { constructor; [apply (proj2 set_has)|constructor; [apply (proj1 set_has)|constructor]]. }
Qed.

(** The same file with the reference in an object of its own: it can be saved, and after reading the
    reference leads to the second definition. *)
Definition saved_root : obj := Obj 1 [(2, ref_to "Header" (Obj 2 [(15108, ref_to "Dictionary" (Obj 3 [(9733, the_set)]))])); (5, ref_to "Clip" (Obj 4 [(513, weak_b)]))].
Lemma named_codes : forall n e, codes n <> [] -> nul_free (codes n) -> encode_utf16le (codes n) = Ok e -> named (Some e) (Some (codes n)) (codes n).
Proof. intros n e H1 H2 H3. split; auto. split; auto. split; auto. eauto. Qed.
Lemma keyed : forall (l : list (list Z)), nodupb zlist_eqb l = true -> NoDup l.
Proof. intros l. apply nodupb_ok. intros a b ->. apply zlist_eqb_refl. Qed.
Lemma saved_form : well_formed saved_root.
Proof.
  assert (NF : forall n, forallb (fun c => negb (c =? 0)) (codes n) = true -> nul_free (codes n)) by (intros n H I; rewrite forallb_forall in H; apply H in I; discriminate I).
  assert (D : forall k n cls, k = repeat n 16 -> well_formed (Obj cls [(6913, PData 130 (Some k))])).
  { intros k n cls _. cbn [well_formed]. split; [repeat constructor; intros []|]. split; [apply keyed; vm_compute; reflexivity|]. cbn. tauto. }
  assert (S : well_formed (Obj 3 [(9733, the_set)])).
  { cbn [well_formed]. split; [repeat constructor; intros []|]. split; [apply keyed; vm_compute; reflexivity|]. cbn [every snd]. split; auto. unfold the_set. cbn [prop_form]. exists (codes "DataDefinitions"), 16.
    split; [apply named_codes; [discriminate|apply NF; reflexivity|reflexivity]|]. split; [discriminate|]. split; auto. split; auto. split; [repeat constructor|]. split; [apply keyed; reflexivity|].
    cbn [every snd]. split; [apply (D _ 1); auto|]. split; [apply (D _ 2); auto|]. exact I. }
  assert (R : forall n o, codes n <> [] -> forallb (fun c => negb (c =? 0)) (codes n) = true -> encode_utf16le (codes n) = Ok (flat_map (fun c => [c; 0]) (codes n) ++ [0; 0]) -> well_formed o -> prop_form well_formed (ref_to n o)).
  { intros n o H1 H2 H3 H4. exists (codes n). split; auto. apply named_codes; auto. }
  unfold saved_root. cbn [well_formed]. split; [repeat constructor; cbn; intuition discriminate|]. split; [apply keyed; vm_compute; reflexivity|]. cbn [every snd]. split.
  - apply R; [discriminate|reflexivity|reflexivity|]. cbn [well_formed]. split; [repeat constructor; intros []|]. split; [apply keyed; vm_compute; reflexivity|]. cbn [every snd]. split; auto. apply R; [discriminate|reflexivity|reflexivity|exact S].
  - split; auto. apply R; [discriminate|reflexivity|reflexivity|]. cbn [well_formed]. split; [repeat constructor; intros []|]. split; [apply keyed; vm_compute; reflexivity|]. cbn [every snd]. split; auto.
    unfold weak_b. cbn [prop_form]. split; [left; auto|]. exists 1, 6913, key_b. repeat split; auto. eexists. split; reflexivity.
Qed.
Example C68_saved_case : exists m t c p table, built_in m /\ set_weak 12 m t [[9]] (PWeak 2 None None None None None) (Target c true key_b) = Ok (p, table) /\
  weak_type m t c [2; 15108; 9733] /\ ordinary c /\ well_formed saved_root /\ inside saved_root p /\ reaches saved_root [2; 15108; 9733] the_set /\
  exists dir' b root' table', write_obj (fun _ _ => codes "N") empty_dir saved_root = Ok dir' /\ table_write table = Ok b /\ read_obj (fun _ _ => codes "N") (depth saved_root) dir' = Ok root' /\ table_read b = Ok table' /\
    get_weak 12 m t root' table' p = Ok (FObj def_b).
Proof.
  destruct C68_case as (m & t & u & c & p & table1 & q & table2 & BI & _ & W & _ & O & _ & S & P & T & _). exists m, t, c, p, table1. split; [exact BI|]. clear BI. split; [exact S|]. split; [exact W|]. split; [exact O|]. split; [exact saved_form|].
  assert (N : inside saved_root p). { subst p. eapply inside_ref; [right; left; reflexivity|]. eapply inside_here. left. reflexivity. } split; [exact N|].
  assert (R : reaches saved_root [2; 15108; 9733] the_set).
  { eapply reaches_step; [split; [left; reflexivity|repeat constructor; cbn; intuition discriminate]|]. eapply reaches_step; [split; [left; reflexivity|repeat constructor; intros []]|]. apply reaches_last. split; [left; reflexivity|repeat constructor; intros []]. }
  split; [exact R|]. destruct (write_obj (fun _ _ => codes "N") empty_dir saved_root) as [dir'|] eqn:Wr; [|vm_compute in Wr; discriminate Wr]. assert (Tw : exists b, table_write table1 = Ok b) by (subst table1; eexists; vm_compute; reflexivity). destruct Tw as [b Tw].
  destruct (C68_saved (fun _ _ => codes "N") _ _ _ _ _ _ _ _ _ _ _ _ _ _ _ table1 saved_root empty_dir dir' b the_set def_b W O (I : index_ok [[9]] [2; 15108; 9733] None) S) as (root' & table' & A1 & A2 & _ & A3); auto.
  - exists []. rewrite app_nil_r. auto. - exact saved_form. - exact (proj2 set_has). - subst table1. repeat constructor.
  - exists dir', b, root', table'. auto.
Qed.

Print Assumptions C68_accepts. Print Assumptions C68_refused. Print Assumptions C68_set. Print Assumptions C68_dangling. Print Assumptions C68_found. Print Assumptions C68_saved.
Print Assumptions C68_array. Print Assumptions C68_assign. Print Assumptions C68_array_accepts. Print Assumptions C68_array_refused. Print Assumptions C68_array_form. Print Assumptions C68_item_missing. Print Assumptions C68_again. Print Assumptions C68_builtin. Print Assumptions C68_types.
Print Assumptions C68_unattached_refuted. Print Assumptions C68_iterator_refuted. Print Assumptions C68_duplicate_refuted. Print Assumptions C68_property_refuted. Print Assumptions C68_classes_refuted. Print Assumptions C68_interchange_refuted.
