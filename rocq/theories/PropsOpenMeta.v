(** C67: opening a file merges its definitions with the built-in ones. *)
From Verif Require Import Base BaseFacts TypesModel TimelineModel MetaModel MetaFacts MetaTables PropsMeta PropsBuiltin PropsMetaCopy PropsMetaMore OpenMetaModel OpenMetaFacts.
From Coq Require Import ZArith List Bool String Lia.
Import ListNotations.
Open Scope Z_scope.

(** ** Specification *)

(** What a sound file stores: definitions with different names and identifiers, properties under their
    identifiers, and no dynamic id twice. *)
Definition sound_file (fc : list cdef) (ft : list tdef) : Prop :=
  NoDup (map c_auid fc) /\ NoDup (map c_name fc) /\ NoDup (map t_auid ft) /\ NoDup (map t_name ft) /\
  (forall c, In c fc -> NoDup (map fst (c_props c)) /\ forall k p, In (k, p) (c_props c) -> p_auid p = k) /\
  (forall c p c' p', In c fc -> In p (props c) -> In c' fc -> In p' (props c') -> 32768 <= p_pid p -> p_pid p = p_pid p' -> c = c' /\ p = p').
(** Every built-in type whose own class the file gives a dynamic property is one of the file's. The two
    types of the root object's properties are not stored in files. *)
Definition complete (m : meta) (fc : list cdef) (ft : list tdef) : Prop :=
  forall a t c p, type_of m a = Some t -> a <> 0x0502280000000000060e2b3401040101 -> a <> 0x0502270000000000060e2b3401040101 ->
  In c fc -> c_auid c = fst (kind_class (t_kind t)) -> In p (props c) -> 32768 <= p_pid p -> In a (map t_auid ft).

(** ** What is used of the built-in model *)
Definition start (m : meta) : Prop :=
  wf m /\ (forall a c, class_of m a = Some c -> keys_ok c) /\ NoDup (map fst (m_cauid m)) /\ NoDup (map fst (m_tauid m)) /\
  (forall a c p, class_of m a = Some c -> In p (props c) -> 32768 <= p_pid p -> fst (m_pids m) < p_pid p) /\
  (forall c p, class_of m ROOT_CLASS = Some c -> In p (props c) -> p_pid p < 32768) /\
  (forall a c p b d q, class_of m a = Some c -> In p (props c) -> class_of m b = Some d -> In q (props d) -> 32768 <= p_pid p -> p_pid p = p_pid q -> a = b /\ p = q).
Definition startb (m : meta) : bool :=
  nodupb Z.eqb (map fst (m_cauid m)) && nodupb Z.eqb (map fst (m_tauid m)) &&
  forallb (fun c => forallb (fun p => (p_pid p <? 32768) || (fst (m_pids m) <? p_pid p)) (props c)) (m_heap m) &&
  match class_of m ROOT_CLASS with Some c => forallb (fun p => p_pid p <? 32768) (props c) | None => true end.
Lemma class_of_In : forall m a c, class_of m a = Some c -> In c (m_heap m).
Proof. intros m a c. unfold class_of. destruct (zget _ _); [|discriminate]. apply nth_error_In. Qed.
Lemma base_start : forall m, base_model = Ok m -> start m.
Proof.
  assert (B : holds base_model startb = true) by (vm_compute; reflexivity). intros m H. pose proof (holds_ok _ _ _ B H) as S. clear B.
  pose proof (reach_built_in m (or_introl H)) as R. clear H. pose proof (stored_all _ R) as (M & _ & T). pose proof M as (P & A1 & A2 & A3).
  unfold startb in S. apply andb_prop in S as [S S4]. apply andb_prop in S as [S S3]. apply andb_prop in S as [S1 S2].
  split; [split; [exact A1|split; [exact A2|split; [apply T|apply T]]]|]. split.
  { intros a c X. apply class_of_heap in X as (h & X & _); auto. destruct P as (P & _). apply P in X as (X1 & X2 & _). split; [exact X1|].
    intros [k p] I. apply X2. apply In_zget; auto. }
  split; [apply nodupZ; auto|]. split; [apply nodupZ; auto|]. split; [|split].
  - intros a c p X I D. apply class_of_In in X. rewrite forallb_forall in S3. apply S3 in X. rewrite forallb_forall in X. apply X in I. apply orb_prop in I as [I|I]; lia.
  - intros c p X I. rewrite X in S4. rewrite forallb_forall in S4. apply S4 in I. lia.
  - apply (proj2 (proj2 (C61_lookups_agree m R))).
Qed.

(** ** The merge, in general *)
Definition orig_id (m : meta) (fc : list cdef) (a k pid : Z) : Prop :=
  32768 <= pid /\ ~ In a (map c_auid fc) /\ exists c p, class_of m a = Some c /\ zget (c_props c) k = Some p /\ p_pid p = pid.
Lemma orig_fun : forall m fc, start m -> forall a k a' k' pid, orig_id m fc a k pid -> orig_id m fc a' k' pid -> a = a' /\ k = k'.
Proof.
  intros m fc (W & K & _ & _ & _ & _ & U) a k a' k' pid (D & _ & c & p & C & P & E) (_ & _ & c' & p' & C' & P' & E').
  assert (I : forall d j q, zget (c_props d) j = Some q -> In q (props d)) by (intros d j q H; apply zget_In in H; apply (in_map snd) in H; exact H).
  destruct (U _ _ _ _ _ _ C (I _ _ _ P) C' (I _ _ _ P')) as [A B]; [lia|lia|]. split; [exact A|]. rewrite <- (zget_keys _ _ _ (K _ _ C) P), <- (zget_keys _ _ _ (K _ _ C') P'). congruence.
Qed.
Lemma file_keys : forall fc ft c, sound_file fc ft -> In c fc -> keys_ok (read_class c).
Proof. intros fc ft c (_ & _ & _ & _ & K & _) I. destruct (K c I) as [K1 K2]. split; [exact K1|]. intros [k p] J. apply K2. exact J. Qed.
Lemma load_class_cases : forall m fc ft a c, wf m -> sound_file fc ft -> class_of (load m fc ft) a = Some c ->
  (exists d, In d fc /\ a = c_auid d /\ c = read_class d) \/ (~ In a (map c_auid fc) /\ class_of m a = Some c).
Proof.
  intros m fc ft a c W (N & _) X. destruct (load_ok m fc ft W) as (_ & _ & _ & _ & _ & _ & _ & _ & _ & L1 & _ & L2 & _).
  destruct (in_dec Z.eq_dec a (map c_auid fc)) as [I|I].
  - apply in_map_iff in I as (d & <- & I). rewrite (L2 N d I) in X. left. exists d. split; [auto|]. split; [auto|congruence].
  - rewrite (L1 a I) in X. auto.
Qed.
Lemma load_merge_inv : forall m fc ft, start m -> sound_file fc ft -> merge_inv (fst (m_pids m)) (orig_id m fc) (load m fc ft).
Proof.
  intros m fc ft S F. pose proof S as (W & K & _ & _ & U & _). destruct (load_ok m fc ft W) as (W' & L1 & _ & L2 & L3 & _).
  assert (Dy : forall d k p, In d fc -> zget (c_props d) k = Some p -> 32768 <= p_pid p -> In (p_pid p) (dynamic_ids d)).
  { intros d k p I H D. unfold dynamic_ids. apply filter_In. split; [apply in_map; apply zget_In in H; apply (in_map snd) in H; exact H|lia]. }
  assert (Pr : forall d k p, zget (c_props d) k = Some p -> In p (props d)) by (intros d j q H; apply zget_In in H; apply (in_map snd) in H; exact H).
  split; [split; [exact W'|]|].
  - intros a c X. apply (load_class_cases m fc ft a c W F) in X as [(d & I & -> & ->)|[_ X]]; [eapply file_keys; eauto|eauto].
  - exists (fun a _ => In a (map c_auid fc)). split; [split; [|split; [|split]]|].
    + intros a c k p a' c' k' p' X1 Y1 X2 Y2 J1 J2 D Q.
      apply (load_class_cases m fc ft _ _ W F) in X1 as [(d & I & -> & ->)|[X _]]; [|tauto]. apply (load_class_cases m fc ft _ _ W F) in X2 as [(d' & I' & -> & ->)|[X _]]; [|tauto].
      pose proof F as (_ & _ & _ & _ & FK & FU). destruct (FU d p d' p' I (Pr d k p Y1) I' (Pr d' k' p' Y2) D (eq_sym Q)) as [-> ->]. split; [reflexivity|].
      rewrite <- (zget_keys _ _ _ (file_keys fc ft d' F I) Y1), <- (zget_keys _ _ _ (file_keys fc ft d' F I) Y2). reflexivity.
    + intros a c k p X Y D. apply (load_class_cases m fc ft a c W F) in X as [(d & I & -> & ->)|[N X]]; [left; apply L3; exists d; split; [auto|eapply Dy; eauto]|].
      right. split; [eapply U; eauto|]. split; [exact D|]. split; [exact N|]. exists c, p. auto.
    + intros a c k p X Y D. apply (load_class_cases m fc ft a c W F) in X as [(d & I & -> & ->)|[N X]]; [left; apply in_map; exact I|].
      right. split; [eapply U; eauto|]. split; [exact D|]. split; [exact N|]. exists c, p. auto.
    + rewrite L2. lia.
    + intros a c k p _ _ H _. rewrite L1 in H. exact H.
Qed.
Lemma load_keys_In : forall m fc ft, start m ->
  (forall x, In x (m_cauid (load m fc ft)) -> zget (m_cauid (load m fc ft)) (fst x) = Some (snd x)) /\
  (forall x, In x (m_tauid (load m fc ft)) -> zget (m_tauid (load m fc ft)) (fst x) = Some (snd x)).
Proof.
  intros m fc ft (_ & _ & N1 & N2 & _). destruct (load_keys m fc ft N1 N2) as [A B]. split; intros [a h] I; apply In_zget; auto.
Qed.

(** what a merge leaves *)
Lemma read_facts : forall m fc ft m', start m -> sound_file fc ft -> read_dictionary true m fc ft = Ok m' ->
  let l := load m fc ft in
  merge_inv (fst (m_pids m)) (orig_id m fc) m' /\ only_ids l m' /\ incl (map c_auid fc) (m_cset m') /\ incl (map t_auid ft) (m_tset m') /\
  (forall a, a <> ROOT_CLASS -> class_of m' a <> None -> In a (m_cset m')) /\ (forall a, In a (m_cset m') -> In a (map c_auid fc) \/ (class_of m' a <> None /\ a <> ROOT_CLASS)) /\
  (forall a, ~ In a ROOT_TYPES -> type_of m' a <> None -> In a (m_tset m')) /\ (forall a, In a (m_tset m') -> In a (map t_auid ft) \/ (type_of m' a <> None /\ ~ In a ROOT_TYPES)) /\
  (forall t, In t ft -> type_of m' (t_auid t) = Some t) /\
  (complete m fc ft -> forall c, In c fc -> class_of m' (c_auid c) = Some (read_class c)).
Proof.
  intros m fc ft m' S F E. cbv zeta. pose proof S as (W & _). pose proof (load_merge_inv m fc ft S F) as I0. pose proof (orig_fun m fc S) as O.
  destruct (load_ok m fc ft W) as (W' & L1 & L2 & _ & _ & L5 & _ & L7 & _ & L9 & _ & L11 & _). destruct (load_keys_In m fc ft S) as [KC KT].
  set (n0 := fst (m_pids m)) in *. set (l := load m fc ft) in *. set (orig := orig_id m fc) in *.
  unfold read_dictionary in E. fold l in E. destruct (each add_type (m_tauid l) l) as [m1|] eqn:E1; [|discriminate]. cbn [bind] in E.
  destruct (each_types n0 orig O _ _ _ I0 E1) as (A1 & A2 & A3 & A4 & A5 & A6 & A7 & A8).
  assert (Q : m_cauid m1 = m_cauid l) by (destruct A2 as (_ & A2 & _); exact A2).
  destruct (each_classes n0 orig O _ _ _ A1 (fun x Ix => eq_trans (f_equal (fun d => zget d (fst x)) Q) (KC x (eq_ind _ (fun d => In x d) Ix _ Q))) E) as (B1 & B2 & B3 & B4 & B5 & B6 & B7).
  pose proof (only_ids_trans _ _ _ A2 B2) as OI. pose proof OI as (O1 & O2 & O3 & O4 & O5 & O6).
  assert (CN : forall a, class_of m' a <> None <-> In a (map fst (m_cauid l))).
  { intros a. unfold class_of. rewrite O2. split.
    - destruct (zget (m_cauid l) a) as [h|] eqn:Z1; [|congruence]. intros _. apply zget_In in Z1. apply (in_map fst) in Z1. exact Z1.
    - intros I. apply in_map_iff in I as ([b h] & Eb & I). cbn [fst] in Eb. subst b. apply KC in I. cbn [fst snd] in I. rewrite I. destruct W' as (_ & W' & _). apply W' in I as (c & I & _). destruct (O5 _ _ I) as (c' & I' & _). congruence. }
  assert (TN : forall a, type_of m' a <> None <-> In a (map fst (m_tauid l))).
  { intros a. unfold type_of. rewrite O4. split.
    - destruct (zget (m_tauid l) a) as [h|] eqn:Z1; [|congruence]. intros _. apply zget_In in Z1. apply (in_map fst) in Z1. exact Z1.
    - intros I. apply in_map_iff in I as ([b h] & Eb & I). cbn [fst] in Eb. subst b. apply KT in I. cbn [fst snd] in I. rewrite I. destruct W' as (_ & _ & _ & W'). apply W' in I as (c & I & _). destruct (O6 _ _ I) as (c' & I' & _). congruence. }
  assert (RT : forall a, ~ In a ROOT_TYPES <-> existsb (Z.eqb a) ROOT_TYPES = false).
  { intros a. split; intros H; [apply not_true_is_false; intros H1; apply H; apply existsb_exists in H1 as (y & H1 & H2); apply Z.eqb_eq in H2 as ->; exact H1|].
    intros H1. assert (existsb (Z.eqb a) ROOT_TYPES = true) by (apply existsb_exists; exists a; split; [exact H1|apply Z.eqb_refl]). congruence. }
  split; [exact B1|]. split; [exact OI|]. split; [rewrite <- L1; eapply incl_tran; [exact A3|exact B3]|]. split; [rewrite <- L2, B4; exact A4|].
  split; [|split; [|split; [|split; [|split]]]].
  - intros a R H. apply CN in H. apply in_map_iff in H as (x & <- & H). apply B5; [rewrite Q; exact H|exact R].
  - intros a H. apply B6 in H as [H|[H R]]; [apply A6 in H as [H|[H R]]; [left; rewrite <- L1; exact H|right; split; [|exact R]]|right; split; [apply CN; rewrite <- Q; exact H|exact R]].
    apply CN. destruct (zget (m_cauid l) a) as [h|] eqn:Z1; [|congruence]. apply zget_In in Z1. apply (in_map fst) in Z1. exact Z1.
  - intros a R H. apply TN in H. apply in_map_iff in H as (x & <- & H). rewrite B4. apply A5; [exact H|apply RT; exact R].
  - intros a H. rewrite B4 in H. apply A7 in H as [H|[H R]]; [left; rewrite <- L2; exact H|right; split; [apply TN; exact H|apply RT; exact R]].
  - intros t It. pose proof F as (_ & _ & F3 & _). pose proof (L7 F3 t It) as X. unfold type_of in *. rewrite O4. destruct (zget (m_tauid l) (t_auid t)) as [h|] eqn:Z1; [|discriminate].
    rewrite (each_classes_theap _ _ _ E). rewrite (each_types_stored n0 orig O _ _ _ I0 KT E1 (t_auid t) h); [exact X| |exact Z1]. rewrite L2. apply in_map. exact It.
  - intros Cm c Ic. pose proof F as (F1 & _). rewrite B7; [|apply A3; rewrite L1; apply in_map; exact Ic]. rewrite A8; [apply L11; auto|].
    intros x Ix R N t d T Kc Hc p Ip. rewrite (L11 F1 c Ic) in Hc. injection Hc as <-. destruct (Z_lt_ge_dec (p_pid p) 32768) as [Hlt|Hge]; [exact Hlt|exfalso].
    rewrite L2 in N. apply N. apply (Cm (fst x) t c p).
    + rewrite <- (L5 (fst x) N). unfold type_of. rewrite (KT x Ix). exact T.
    + intros Eq. apply RT in R. apply R. rewrite Eq. cbn. auto.
    + intros Eq. apply RT in R. apply R. rewrite Eq. cbn. auto.
    + exact Ic.
    + symmetry. exact Kc.
    + exact Ip.
    + lia.
Qed.

(** ** C67: the file's definitions *)
Lemma load_one : forall m fc ft, sound_file fc ft -> let l := load m fc ft in
  (forall c, In c fc -> exists h, sget (m_cname l) (c_name c) = Some h /\ zget (m_cauid l) (c_auid c) = Some h) /\
  (forall t, In t ft -> exists h, sget (m_tname l) (t_name t) = Some h /\ zget (m_tauid l) (t_auid t) = Some h) /\
  (forall n, ~ In n (map c_name fc) -> sget (m_cname l) n = sget (m_cname m) n) /\ (forall a, ~ In a (map c_auid fc) -> zget (m_cauid l) a = zget (m_cauid m) a) /\
  (forall n, ~ In n (map t_name ft) -> sget (m_tname l) n = sget (m_tname m) n) /\ (forall a, ~ In a (map t_auid ft) -> zget (m_tauid l) a = zget (m_tauid m) a).
Proof.
  intros m fc ft (N1 & N2 & N3 & N4 & _). cbv zeta. unfold load. set (m1 := fold_left load_type ft (emptied m fc ft)).
  destruct (load_index fc m1) as (I1 & I2 & I3). destruct (load_types_index ft (emptied m fc ft)) as (J1 & J2 & J3). fold m1 in J1, J2, J3.
  assert (T : forall l x, m_tname (fold_left load_class l x) = m_tname x /\ m_tauid (fold_left load_class l x) = m_tauid x).
  { induction l as [|y l IH]; intros x; cbn [fold_left]; [auto|]. apply (IH (load_class x y)). }
  assert (C : forall l x, m_cname (fold_left load_type l x) = m_cname x /\ m_cauid (fold_left load_type l x) = m_cauid x).
  { induction l as [|y l IH]; intros x; cbn [fold_left]; [auto|]. apply (IH (load_type x y)). }
  destruct (T fc m1) as [T1 T2]. destruct (C ft (emptied m fc ft)) as [C1 C2]. fold m1 in C1, C2.
  split; [exact (I1 N1 N2)|]. split; [rewrite T1, T2; exact (J1 N3 N4)|]. split; [intros n H; rewrite (I2 n H), C1; reflexivity|]. split; [intros n H; rewrite (I3 n H), C2; reflexivity|].
  split; [intros n H; rewrite T1; exact (J2 n H)|intros n H; rewrite T2; exact (J3 n H)].
Qed.

(** Whatever classes and types the built-in model has: after opening a file, a class the file defines is
    found by its identifier and by its name, and it is exactly as the file has it, with the ids the file
    uses; so are its types. *)
Theorem C67_file : forall w m fc ft m', base_model = Ok m -> sound_file fc ft -> (w = true -> complete m fc ft) -> read_dictionary w m fc ft = Ok m' ->
  (forall c, In c fc -> exists c', class_of m' (c_auid c) = Some c' /\ class_named m' (c_name c) = Some c' /\
     c_name c' = c_name c /\ c_auid c' = c_auid c /\ c_parent c' = c_parent c /\ c_conc c' = c_conc c /\ c_props c' = c_props c) /\
  (forall t, In t ft -> type_of m' (t_auid t) = Some t /\ type_named m' (t_name t) = Some t).
Proof.
  intros w m fc ft m' B F Cm E. pose proof (base_start m B) as S. clear B. pose proof S as (W & _). destruct (load_one m fc ft F) as (X1 & X2 & _).
  pose proof F as (F1 & F2 & F3 & F4 & _). destruct w.
  - destruct (read_facts m fc ft m' S F E) as (_ & (O1 & O2 & O3 & O4 & _) & _ & _ & _ & _ & _ & _ & Ty & Cl). split.
    + intros c I. exists (read_class c). pose proof (Cl (Cm eq_refl) c I) as C. split; [exact C|]. split; [|repeat split].
      destruct (X1 c I) as (h & H1 & H2). unfold class_named. rewrite O1, H1. unfold class_of in C. rewrite O2, H2 in C. exact C.
    + intros t I. pose proof (Ty t I) as C. split; [exact C|]. destruct (X2 t I) as (h & H1 & H2). unfold type_named. rewrite O3, H1. unfold type_of in C. rewrite O4, H2 in C. exact C.
  - cbn [read_dictionary] in E. assert (m' = load m fc ft) as -> by congruence. destruct (load_ok m fc ft W) as (_ & _ & _ & _ & _ & _ & _ & L7 & L8 & _ & _ & L11 & L12). split.
    + intros c I. exists (read_class c). split; [apply L11; auto|]. split; [apply L12; auto|]. repeat split.
    + intros t I. split; [apply L7; auto|apply L8; auto].
Qed.
Print Assumptions C67_file.

(** Looking a property up by its id in a class all of whose ancestors are the file's gives the file's
    property with that id. *)
Definition by_id_ok (c : cdef) : Prop :=
  (forall k p, zget (c_bypid c) k = Some p -> p_pid p = k /\ In p (props c)) /\ (forall p, In p (props c) -> zget (c_bypid c) (p_pid p) <> None).
Lemma by_id_chain : forall m c l, chain m c l -> (forall x, In x l -> by_id_ok x) -> NoDup (map p_pid (flat_map props l)) ->
  forall pid, exists r, propertydef m c pid = Ok r /\ forall p, r = Some p <-> In p (flat_map props l) /\ p_pid p = pid.
Proof.
  intros m c l H K N pid.
  unfold propertydef, get_propertydef_from_pid, all_propertydefs. rewrite (relatives_chain _ _ _ H). cbn [bind].
  assert (U : forall p q, In p (flat_map props l) -> In q (flat_map props l) -> p_pid p = p_pid q -> p = q) by (intros; eapply NoDup_map_inj; eauto).
  destruct (first_in c_bypid pid l) as [q|] eqn:Q.
  - eexists. split; [reflexivity|]. apply first_in_some in Q as (x & I & Q). destruct (K x I) as (K1 & _). apply K1 in Q as [Q1 Q2].
    assert (Iq : In q (flat_map props l)) by (apply in_flat_map; eauto). intros p. split; [intros Y; injection Y as <-; auto|]. intros [Ip Ep]. f_equal. apply U; auto. congruence.
  - eexists. split; [reflexivity|]. intros p. split; [intros Y; apply find_some in Y as [Y1 Y2]; split; [auto|lia]|].
    intros [Ip Ep]. exfalso. apply in_flat_map in Ip as (x & I & Ip). destruct (K x I) as (_ & K2). apply (K2 p Ip). rewrite Ep. eapply first_in_none; eauto.
Qed.
Lemma read_by_id : forall c, by_id_ok (read_class c).
Proof.
  intros c. unfold by_id_ok. cbn [read_class c_bypid]. unfold bypid_of. change (props (read_class c)) with (props c).
  assert (G : forall l d, (forall k p, zget (fold_left (fun d p => zset d (p_pid p) p) l d) k = Some p -> (p_pid p = k /\ In p l) \/ zget d k = Some p) /\
    (forall k, zget d k <> None \/ In k (map p_pid l) -> zget (fold_left (fun d p => zset d (p_pid p) p) l d) k <> None)).
  { induction l as [|q l IH]; intros d; cbn [fold_left].
    - split; [auto|]. intros k [H|[]]; exact H.
    - destruct (IH (zset d (p_pid q) q)) as [I1 I2]. split.
      + intros k p H. apply I1 in H as [[H1 H2]|H]; [left; cbn; auto|]. rewrite zget_set in H. destruct (Z.eqb_spec (p_pid q) k); [left; injection H as <-; cbn; auto|auto].
      + intros k H. apply I2. rewrite zget_set. cbn [map In] in H. destruct (Z.eqb_spec (p_pid q) k); [left; discriminate|]. tauto. }
  destruct (G (props c) []) as [G1 G2]. split.
  - intros k p H. apply G1 in H as [H|H]; [exact H|discriminate].
  - intros p I. apply G2. right. apply in_map. exact I.
Qed.
Lemma chain_found : forall m c l, wf m -> class_of m (c_auid c) = Some c -> chain m c l -> forall k, In k l -> class_of m (c_auid k) = Some k.
Proof.
  intros m c l W X H. induction H as [c H|c p l H1 H2 H3 IH]; intros k I.
  - destruct I as [<-|[]]. exact X.
  - destruct I as [<-|I]; [exact X|]. apply IH; [|exact I]. unfold class_of in *. destruct (zget (m_cauid m) (c_parent c)) as [h|] eqn:Q; [|discriminate].
    pose proof W as (_ & W2 & _). destruct (W2 _ _ Q) as (d & D1 & D2). assert (d = p) as -> by congruence. rewrite D2, Q. exact D1.
Qed.
Theorem C67_by_id : forall w m fc ft m', base_model = Ok m -> sound_file fc ft -> (w = true -> complete m fc ft) -> read_dictionary w m fc ft = Ok m' ->
  forall a c l, class_of m' a = Some c -> chain m' c l -> (forall k, In k l -> In (c_auid k) (map c_auid fc)) -> NoDup (map p_pid (flat_map props l)) ->
  forall pid, exists r, propertydef m' c pid = Ok r /\ forall p, r = Some p <-> In p (flat_map props l) /\ p_pid p = pid.
Proof.
  intros w m fc ft m' B F Cm E a c l X H L N. pose proof (base_start m B) as S. clear B. pose proof S as (W & _). pose proof F as (F1 & _).
  assert (G : wf m' /\ forall d, In d fc -> class_of m' (c_auid d) = Some (read_class d)).
  { destruct w.
    - destruct (read_facts m fc ft m' S F E) as (((W' & _) & _) & _ & _ & _ & _ & _ & _ & _ & _ & Cl). split; [exact W'|]. apply Cl. auto.
    - cbn [read_dictionary] in E. assert (m' = load m fc ft) as -> by congruence. destruct (load_ok m fc ft W) as (W' & _ & _ & _ & _ & _ & _ & _ & _ & _ & _ & L11 & _). split; [exact W'|]. apply L11. exact F1. }
  destruct G as [W' G]. apply by_id_chain with (l := l); auto. intros k Ik.
  assert (Xc : class_of m' (c_auid c) = Some c).
  { unfold class_of in *. destruct (zget (m_cauid m') a) as [h|] eqn:Q; [|discriminate]. pose proof W' as (_ & W2 & _). destruct (W2 _ _ Q) as (d & D1 & D2). assert (d = c) as -> by congruence. rewrite D2, Q. exact D1. }
  pose proof (chain_found m' c l W' Xc H k Ik) as Y. pose proof (L k Ik) as Ik'. apply in_map_iff in Ik' as (d & Ed & Id). rewrite <- Ed, (G d Id) in Y. injection Y as <-. apply read_by_id.
Qed.
Print Assumptions C67_by_id.

(** ** C67: the built-in definitions *)

(** A class or type of the built-in model that the file does not define is still there, as before except
    for dynamic ids (none of them changes in a file opened for reading); unless the file uses its name
    for another class, it is found by every name it had. *)
Theorem C67_built_in : forall w m fc ft m', base_model = Ok m -> sound_file fc ft -> read_dictionary w m fc ft = Ok m' ->
  (forall a c, class_of m a = Some c -> ~ In a (map c_auid fc) -> exists c', class_of m' a = Some c' /\ same_cdef c c' /\ (w = false -> c' = c) /\
     forall n, class_named m n = Some c -> ~ In n (map c_name fc) -> class_named m' n = Some c') /\
  (forall a t, type_of m a = Some t -> ~ In a (map t_auid ft) -> exists t', type_of m' a = Some t' /\ same_tdef t t' /\ (w = false -> t' = t)).
Proof.
  intros w m fc ft m' B F E. pose proof (base_start m B) as S. pose proof (reach_MInv m (reach_built_in m (or_introl B))) as M. clear B. pose proof S as (W & _).
  destruct (load_one m fc ft F) as (_ & _ & Y1 & Y2 & Y3 & Y4). destruct (load_ok m fc ft W) as (_ & _ & _ & _ & _ & L5 & _ & _ & _ & L9 & L10 & _ & _).
  assert (O : only_ids (load m fc ft) m' /\ (w = false -> m' = load m fc ft)).
  { destruct w; [destruct (read_facts m fc ft m' S F E) as (_ & O & _); split; [exact O|discriminate]|]. cbn [read_dictionary] in E. assert (m' = load m fc ft) as -> by congruence. split; [apply only_ids_refl|auto]. }
  destruct O as [(O1 & O2 & O3 & O4 & O5 & O6) Q]. split.
  - intros a c X N. pose proof (L9 a N) as Z1. rewrite X in Z1. unfold class_of in Z1. destruct (zget (m_cauid (load m fc ft)) a) as [h|] eqn:H; [|discriminate].
    destruct (O5 _ _ Z1) as (c' & C1 & C2). exists c'. split; [unfold class_of; rewrite O2, H; exact C1|]. split; [exact C2|]. split; [intros R; rewrite (Q R) in C1; congruence|].
    intros n Hn Nn. unfold class_named. rewrite O1, (Y1 n Nn). unfold class_named in Hn. destruct (sget (m_cname m) n) as [k|] eqn:K; [|discriminate].
    pose proof M as (_ & _ & _ & M4). assert (k = h) as ->; [|exact C1]. rewrite (Y2 a N) in H. apply class_of_heap in X as (_ & _ & _ & X); [|exact M].
    rewrite <- X in H. apply M4 in Hn. congruence.
  - intros a t X N. pose proof (L5 a N) as Z1. rewrite X in Z1. unfold type_of in Z1. destruct (zget (m_tauid (load m fc ft)) a) as [h|] eqn:H; [|discriminate].
    destruct (O6 _ _ Z1) as (c' & C1 & C2). exists c'. split; [unfold type_of; rewrite O4, H; exact C1|]. split; [exact C2|]. intros R. rewrite (Q R) in C1. congruence.
Qed.
Print Assumptions C67_built_in.

(** ** C67: ids and what is stored *)

(** In a file opened for writing no dynamic id is used twice, the next one chosen is none of them, and the
    classes and types stored with the file are all that are known, but those of the root object. *)
Theorem C67_ids : forall m fc ft m', base_model = Ok m -> sound_file fc ft -> read_dictionary true m fc ft = Ok m' ->
  (forall a c p b d q, class_of m' a = Some c -> In p (props c) -> class_of m' b = Some d -> In q (props d) -> 32768 <= p_pid p -> p_pid p = p_pid q -> a = b /\ p = q) /\
  (forall x st, next_free_pid (m_pids m') = Ok (x, st) -> 32768 <= x -> forall a c p, class_of m' a = Some c -> In p (props c) -> p_pid p <> x).
Proof.
  intros m fc ft m' B F E. pose proof (base_start m B) as S. clear B. pose proof S as (W & K0 & _ & _ & _ & Rt & _).
  destruct (read_facts m fc ft m' S F E) as (((W' & K') & clean & (I1 & I2 & I3 & I4) & I5) & OI & _ & _ & Cs & _).
  assert (Z1 : forall a c p, class_of m' a = Some c -> In p (props c) -> zget (c_props c) (p_auid p) = Some p) by (intros a c p X I; apply (proj2 (keys_props c (K' a c X)) p I)).
  split.
  - assert (Cl : forall a c p, class_of m' a = Some c -> In p (props c) -> 32768 <= p_pid p -> clean a (p_auid p)).
    { intros a c p X I D. destruct (Z.eq_dec a ROOT_CLASS) as [->|NE].
      - (* the root class has no dynamic ids, unless the file defines it *)
        destruct (in_dec Z.eq_dec ROOT_CLASS (map c_auid fc)) as [J|J].
        + eapply I5; [exact X|eauto| |exact D]. destruct (read_facts m fc ft m' S F E) as (_ & _ & In1 & _). apply In1. exact J.
        + exfalso. destruct (load_ok m fc ft W) as (_ & _ & _ & _ & _ & _ & _ & _ & _ & L9 & _). destruct OI as (_ & O2 & _ & _ & O5 & _).
          unfold class_of in X. rewrite O2 in X. destruct (zget (m_cauid (load m fc ft)) ROOT_CLASS) as [h|] eqn:H; [|discriminate].
          pose proof (L9 _ J) as Y. unfold class_of at 1 in Y. rewrite H in Y. destruct (nth_error (m_heap (load m fc ft)) h) as [c0|] eqn:N.
          * destruct (O5 _ _ N) as (c1 & N1 & _ & Sm). assert (c1 = c) as -> by congruence. unfold props in I. apply in_map_iff in I as (x & <- & I).
            assert (G : exists y, In y (c_props c0) /\ same_pdef (snd y) (snd x)). { clear - Sm I. induction Sm as [|u v l l' [_ U] H IH]; [destruct I|]. destruct I as [<-|I]; [exists u; cbn; auto|]. destruct (IH I) as (y & Iy & Sy). exists y. cbn. auto. }
            destruct G as (y & Iy & Sy). assert (p_pid (snd y) < 32768) by (eapply Rt; [symmetry; exact Y|apply in_map; exact Iy]). destruct Sy as (_ & _ & _ & _ & _ & Sy). rewrite (Sy H0) in D. lia.
          * assert (W2 := proj1 (load_ok m fc ft W)). destruct W2 as (_ & W2 & _). apply W2 in H as (c0 & H & _). congruence.
      - eapply I5; [exact X|eauto| |exact D]. apply Cs; [exact NE|congruence]. }
    intros a c p b d q X I Y J D Eq. destruct (I1 a c (p_auid p) p b d (p_auid q) q) as [-> Ek]; eauto.
    + eapply Cl; [exact Y|exact J|lia].
    + split; [reflexivity|]. assert (d = c) as -> by congruence. pose proof (Z1 _ _ _ X I) as Q1. pose proof (Z1 _ _ _ X J) as Q2. congruence.
  - intros x st NF Dx a c p X I Eq. destruct (next_free_fresh _ _ _ NF) as [NF1 _]. destruct (next_free_le _ _ _ NF) as [NF3 _].
    destruct (I2 a c (p_auid p) p X (Z1 _ _ _ X I)) as [L|[L _]]; [lia| |lia]. apply NF1. rewrite <- Eq. exact L.
Qed.
Print Assumptions C67_ids.

Theorem C67_stored : forall m fc ft m', base_model = Ok m -> sound_file fc ft -> ~ In 0xb3b398a51c9011d48053080036210804 (map c_auid fc) ->
  read_dictionary true m fc ft = Ok m' ->
  (forall a, In a (m_cset m') <-> (class_of m' a <> None /\ a <> 0xb3b398a51c9011d48053080036210804)) /\
  (forall a, In a (m_tset m') <-> (In a (map t_auid ft) \/ (type_of m' a <> None /\ a <> 0x0502280000000000060e2b3401040101 /\ a <> 0x0502270000000000060e2b3401040101))).
Proof.
  intros m fc ft m' B F NR E. pose proof (base_start m B) as S. pose proof S as (W & _). pose proof F as (F1 & _).
  destruct (read_facts m fc ft m' S F E) as (_ & OI & Ic & It & C1 & C2 & T1 & T2 & Ty & _). split.
  - intros a. split; [|intros [H1 H2]; apply C1; auto]. intros H. apply C2 in H as [H|H]; [|exact H]. split; [|intros ->; auto].
    apply in_map_iff in H as (c & <- & I). destruct (load_ok m fc ft W) as (_ & _ & _ & _ & _ & _ & _ & _ & _ & _ & _ & L11 & _). pose proof (L11 F1 c I) as X.
    destruct OI as (_ & O2 & _ & _ & O5 & _). unfold class_of in *. rewrite O2. destruct (zget _ _) as [h|]; [|discriminate]. destruct (O5 _ _ X) as (c' & X' & _). congruence.
  - intros a. split.
    + intros H. apply T2 in H as [H|[H R]]; [auto|]. right. split; [exact H|]. split; intros ->; apply R; cbn; auto.
    + intros [H|(H & R1 & R2)]; [apply It; exact H|]. apply T1; [|exact H]. cbn. intros [Q|[Q|[]]]; [apply R1; symmetry; exact Q|apply R2; symmetry; exact Q].
Qed.
Print Assumptions C67_stored.
