(** C59: the built-in object model (MetaTables), as registered by the code, is consistent. The tables
    are finite, so "for every class and type of the model" is checked by evaluation in the kernel. *)
From Verif Require Import Base BaseFacts Codec Text TypesModel TypesFacts PropsTypes TimelineModel MetaModel MetaFacts MetaTables PropsMeta.
From Coq Require Import ZArith List Bool String Lia.
Import ListNotations.
Open Scope Z_scope.

(** A new file's dictionary, without and with the extensions. *)
Definition built_in (m : meta) : Prop := base_model = Ok m \/ full_model = Ok m.
(** [check] holds of both *)
Definition holds (r : result meta) (check : meta -> bool) : bool := match r with Ok m => check m | Err _ => false end.
Lemma holds_ok : forall r check m, holds r check = true -> r = Ok m -> check m = true.
Proof. intros r check m H ->. exact H. Qed.
Definition both (check : meta -> bool) : Prop := holds base_model check = true /\ holds full_model check = true.
Lemma both_ok : forall check, both check -> forall m, built_in m -> check m = true.
Proof.
  intros check [B1 B2] m H.
  destruct H as [H|H]; [exact (holds_ok _ _ _ B1 H)|exact (holds_ok _ _ _ B2 H)].
Qed.

(** The tables are registered without an error, in the way of [mrun]. *)
Definition class_ops (l : list crow) : list mop := map OClass l.
Definition alias_ops (l : list (string * string)) : list mop := map (fun a => OAlias (fst a) (snd a)) l.
Definition type_ops (l : list tdef) : list mop := map OType l.
Definition base_ops : list mop := class_ops root_classes ++ class_ops base_classes ++ alias_ops base_aliases ++ type_ops root_types ++ type_ops base_types.
Definition full_ops : list mop := base_ops ++ class_ops ext_classes ++ alias_ops ext_aliases ++ type_ops ext_types.
Lemma mrun_app : forall a m b, mrun m (a ++ b) = (do m <- mrun m a ;; mrun m b).
Proof. induction a as [|o a IH]; intros m b; cbn; [reflexivity|]. destruct (mstep m o); cbn; auto. Qed.
Lemma mrun_classes : forall l m, mrun m (class_ops l) = register_classes m l.
Proof. induction l as [|r l IH]; intros m; cbn; [reflexivity|]. destruct (register_classdef m r); cbn; auto. Qed.
Lemma mrun_aliases : forall l m, mrun m (alias_ops l) = register_aliases m l.
Proof. induction l as [|[a n] l IH]; intros m; cbn [alias_ops map fst snd mrun mstep register_aliases]; [reflexivity|]. destruct (register_alias m (a, n)); cbn [bind]; auto. Qed.
Lemma mrun_types : forall l m, mrun m (type_ops l) = register_types m l.
Proof. induction l as [|t l IH]; intros m; cbn; [reflexivity|]. destruct (register_type m t); cbn; auto. Qed.
Lemma chooses : forall ops, forallb (fun o => match o with OProp _ _ => false | _ => true end) ops = true -> Forall lets_choose ops.
Proof. intros ops H. apply Forall_forall. intros o I. rewrite forallb_forall in H. apply H in I. destruct o; cbn; auto. discriminate. Qed.
Lemma run_tables : forall rc bc ba rt bt m, mrun m (class_ops rc ++ class_ops bc ++ alias_ops ba ++ type_ops rt ++ type_ops bt) =
  (do m <- register_classes m rc ;; do m <- register_classes m bc ;; do m <- register_aliases m ba ;; do m <- register_types m rt ;; register_types m bt).
Proof.
  intros. rewrite mrun_app, mrun_classes. destruct (register_classes m rc) as [m1|]; [|reflexivity]. cbn [bind].
  rewrite mrun_app, mrun_classes. destruct (register_classes m1 bc) as [m2|]; [|reflexivity]. cbn [bind].
  rewrite mrun_app, mrun_aliases. destruct (register_aliases m2 ba) as [m3|]; [|reflexivity]. cbn [bind].
  rewrite mrun_app, mrun_types. destruct (register_types m3 rt) as [m4|]; [|reflexivity]. cbn [bind]. apply mrun_types.
Qed.
Lemma run_more : forall ops ec ea et r, mrun meta0 ops = r -> mrun meta0 (ops ++ class_ops ec ++ alias_ops ea ++ type_ops et) =
  (do m <- r ;; do m <- register_classes m ec ;; do m <- register_aliases m ea ;; register_types m et).
Proof.
  intros ops ec ea et r <-. rewrite mrun_app. destruct (mrun meta0 ops) as [m|]; [|reflexivity]. cbn [bind].
  rewrite mrun_app, mrun_classes. destruct (register_classes m ec) as [m2|]; [|reflexivity]. cbn [bind].
  rewrite mrun_app, mrun_aliases. destruct (register_aliases m2 ea) as [m3|]; [|reflexivity]. cbn [bind]. apply mrun_types.
Qed.
Lemma base_run : mrun meta0 base_ops = base_model.
Proof. exact (run_tables root_classes base_classes base_aliases root_types base_types meta0). Qed.
Lemma full_run : mrun meta0 full_ops = full_model.
Proof. exact (run_more base_ops ext_classes ext_aliases ext_types base_model base_run). Qed.
Lemma built_in_run : forall m, built_in m -> exists ops, Forall lets_choose ops /\ mrun meta0 ops = Ok m.
Proof.
  intros m [H|H].
  - exists base_ops. split; [apply chooses; vm_compute; reflexivity|]. exact (eq_trans base_run H).
  - exists full_ops. split; [apply chooses; vm_compute; reflexivity|]. exact (eq_trans full_run H).
Qed.

(** ** Deciding the statements *)
Fixpoint nodupb {A} (eqb : A -> A -> bool) (l : list A) : bool :=
  match l with [] => true | x :: t => negb (existsb (eqb x) t) && nodupb eqb t end.
Lemma nodupb_ok : forall A (eqb : A -> A -> bool), (forall x y, x = y -> eqb x y = true) -> forall l, nodupb eqb l = true -> NoDup l.
Proof.
  intros A eqb Hr. induction l as [|x l IH]; cbn; intros H; [constructor|]. apply andb_true_iff in H as [H1 H2]. constructor; [|auto].
  intros I. apply negb_true_iff in H1. assert (existsb (eqb x) l = true) by (apply existsb_exists; exists x; auto). congruence.
Qed.
Lemma nodupZ : forall l, nodupb Z.eqb l = true -> NoDup l.
Proof. apply nodupb_ok. intros x y ->. apply Z.eqb_refl. Qed.
Lemma nodupS : forall l, nodupb String.eqb l = true -> NoDup l.
Proof. apply nodupb_ok. intros x y ->. apply String.eqb_refl. Qed.
Definition is_some {A} (o : option A) : bool := match o with Some _ => true | None => false end.

(** ** Classes *)
Definition class_check (m : meta) (c : cdef) : bool :=
  match relatives m c with
  | Err _ => false
  | Ok l =>
      (c_parent (last l c) =? c_auid (last l c)) && nodupb Z.eqb (map p_pid (flat_map props l)) &&
      nodupb String.eqb (map p_name (flat_map props l)) && nodupb Z.eqb (map p_auid (flat_map props l)) &&
      forallb (fun p => is_some (type_of m (p_type p)) && negb (p_pid p =? 0)) (flat_map props l)
  end.
Definition classes_check (m : meta) : bool :=
  nodupb Z.eqb (map c_auid (m_heap m)) && nodupb String.eqb (map c_name (m_heap m)) &&
  forallb (fun c => match class_of m (c_auid c), class_named m (c_name c) with Some a, Some b => (c_auid a =? c_auid c) && (c_auid b =? c_auid c) | _, _ => false end) (m_heap m) &&
  forallb (class_check m) (m_heap m).
Lemma classes_checked : both classes_check.
Proof. split; vm_compute; reflexivity. Qed.

Lemma NoDup_auid_eq : forall (l : list cdef) a b, NoDup (map c_auid l) -> In a l -> In b l -> c_auid a = c_auid b -> a = b.
Proof. intros. eapply NoDup_map_inj; eauto. Qed.
Lemma class_of_In : forall m a c, class_of m a = Some c -> In c (m_heap m).
Proof. intros m a c. unfold class_of. destruct (zget (m_cauid m) a); [|discriminate]. apply nth_error_In. Qed.
Lemma class_named_In : forall m a c, class_named m a = Some c -> In c (m_heap m).
Proof. intros m a c. unfold class_named. destruct (sget (m_cname m) a); [|discriminate]. apply nth_error_In. Qed.

(** Every class of the model has its own name and identifier and is found by both; its parents are
    registered and end in a class without a parent; along the chain no two properties share an id,
    a name or an identifier, and the type of each is registered. *)
Theorem C59_classes : forall m, built_in m ->
  NoDup (map c_auid (m_heap m)) /\ NoDup (map c_name (m_heap m)) /\
  forall c, In c (m_heap m) -> class_of m (c_auid c) = Some c /\ class_named m (c_name c) = Some c /\
  exists l, chain m c l /\ c_parent (last l c) = c_auid (last l c) /\
    NoDup (map p_pid (flat_map props l)) /\ NoDup (map p_name (flat_map props l)) /\ NoDup (map p_auid (flat_map props l)) /\
    forall p, In p (flat_map props l) -> p_pid p <> 0 /\ exists t, type_of m (p_type p) = Some t.
Proof.
  intros m H. pose proof (both_ok _ classes_checked m H) as B. unfold classes_check in B. rewrite !andb_true_iff, !forallb_forall in B. destruct B as (((B1 & B2) & B3) & B4).
  apply nodupZ in B1. apply nodupS in B2. split; auto. split; auto. intros c I. specialize (B3 c I). cbv beta in B3.
  destruct (class_of m (c_auid c)) as [a|] eqn:Ea; [|discriminate]. destruct (class_named m (c_name c)) as [b|] eqn:Eb; [|discriminate].
  apply andb_true_iff in B3 as [Ba Bb]. apply Z.eqb_eq in Ba, Bb.
  split; [f_equal; eapply NoDup_auid_eq; eauto using class_of_In|]. split; [f_equal; eapply NoDup_auid_eq; eauto using class_named_In|].
  specialize (B4 c I). unfold class_check in B4. destruct (relatives m c) as [l|] eqn:El; [|discriminate]. rewrite !andb_true_iff, forallb_forall in B4. destruct B4 as ((((C1 & C2) & C3) & C4) & C5).
  exists l. split; [apply chain_lineage, relatives_iff; auto|]. split; [apply Z.eqb_eq; auto|]. split; [apply nodupZ; auto|]. split; [apply nodupS; auto|]. split; [apply nodupZ; auto|].
  intros p Ip. specialize (C5 p Ip). cbv beta in C5. apply andb_true_iff in C5 as [C5 C6]. split; [apply negb_true_iff, Z.eqb_neq in C6; auto|]. destruct (type_of m (p_type p)); [eauto|discriminate].
Qed.
(** Every alias of the tables names a registered class and is no class's own name. *)
Theorem C59_aliases : forall m a n, (base_model = Ok m /\ In (a, n) base_aliases) \/ (full_model = Ok m /\ In (a, n) (base_aliases ++ ext_aliases)) ->
  exists c, class_named m a = Some c /\ c_name c = n /\ forall d, In d (m_heap m) -> c_name d <> a.
Proof.
  set (ok := fun m (x : string * string) => match class_named m (fst x) with Some c => String.eqb (c_name c) (snd x) | None => false end && forallb (fun d => negb (String.eqb (c_name d) (fst x))) (m_heap m)).
  assert (B : holds base_model (fun m => forallb (ok m) base_aliases) = true) by (vm_compute; reflexivity).
  assert (G : holds full_model (fun m => forallb (ok m) (base_aliases ++ ext_aliases)) = true) by (vm_compute; reflexivity).
  intros m a n H. assert (K : ok m (a, n) = true).
  { destruct H as [[E I]|[E I]].
    - pose proof (holds_ok _ _ _ B E) as Q. cbv beta in Q. rewrite forallb_forall in Q. exact (Q _ I).
    - pose proof (holds_ok _ _ _ G E) as Q. cbv beta in Q. rewrite forallb_forall in Q. exact (Q _ I). }
  clear B G H. unfold ok in K. cbn [fst snd] in K. apply andb_true_iff in K as [K1 K2]. destruct (class_named m a) as [c|]; [|discriminate]. exists c. split; auto.
  split; [apply String.eqb_eq; auto|]. intros d I. rewrite forallb_forall in K2. apply K2 in I. apply negb_true_iff, String.eqb_neq in I. auto.
Qed.

(** So the lookups of C62 apply to every class of the model. *)
Corollary C59_lookups : forall m c p, built_in m -> In c (m_heap m) -> (exists l, chain m c l /\ In p (flat_map props l)) ->
  propertydef m c (p_pid p) = Ok (Some p) /\ lookup_propertydef m c (p_auid p) = Ok (Some p).
Proof.
  intros m c p H I (l & Hl & Ip). destruct (built_in_run m H) as (ops & F & E). destruct (C59_classes m H) as (_ & _ & Q). destruct (Q c I) as (Hc & _ & l' & Hl' & _ & N1 & _ & N3 & _).
  assert (l' = l) by (apply chain_lineage in Hl, Hl'; eapply lineage_fun; eauto). subst l'. split.
  - destruct (C62_by_id _ _ _ _ _ F E Hc Hl N1 (p_pid p)) as (r & Er & Hr). rewrite Er. f_equal. apply Hr. auto.
  - destruct (C62_by_identifier _ _ _ _ _ F E Hc Hl N3 (p_auid p)) as (r & Er & Hr). rewrite Er. f_equal. apply Hr. auto.
Qed.

(** ** Types *)
(** A path of property identifiers leads from a class to a strong reference set of another class,
    through strong references and members of such sets. *)
Inductive leads (m : meta) : cdef -> list Z -> cdef -> Prop :=
| leads_set : forall c p t e s k, In p (props c) -> type_of m (p_type p) = Some t -> t_kind t = KSet e -> type_of m e = Some s ->
    t_kind s = KStrong (c_auid k) -> class_of m (c_auid k) = Some k -> leads m c [p_auid p] k
| leads_ref : forall c p t d path k, In p (props c) -> type_of m (p_type p) = Some t -> t_kind t = KStrong (c_auid d) -> class_of m (c_auid d) = Some d ->
    leads m d path k -> leads m c (p_auid p :: path) k
| leads_in : forall c p t e s d path k, In p (props c) -> type_of m (p_type p) = Some t -> t_kind t = KSet e -> type_of m e = Some s ->
    t_kind s = KStrong (c_auid d) -> class_of m (c_auid d) = Some d -> leads m d path k -> leads m c (p_auid p :: path) k.
(** A definition whose references end: elements are integers, values or references, the members of a
    record are found by name as by identifier, reference types name a registered class and weak
    references a path from Root to a set of that class. *)
Inductive sound (m : meta) : tdef -> Prop :=
| sound_int : forall t size sg, t_kind t = KInt size sg -> In size [1; 2; 4; 8] -> sound m t
| sound_leaf : forall t, In (t_kind t) [KStream; KOpaque; KChar; KIndirect] -> sound m t
| sound_genchar : forall t size pid, t_kind t = KGenChar size pid -> 1 <= size <= 255 -> 32768 <= pid -> sound m t
| sound_ext : forall t items, t_kind t = KExt items -> sound m t
| sound_enum : forall t el items e size sg, t_kind t = KEnum el items -> type_of m el = Some e -> t_kind e = KInt size sg -> sound m e -> sound m t
| sound_elem : forall t el e, In (t_kind t) [KVar el; KSet el; KString el; KRename el] -> type_of m el = Some e -> sound m e -> sound m t
| sound_fixed : forall t el n e, t_kind t = KFixed el n -> 0 < n < 2 ^ 32 -> type_of m el = Some e -> sound m e -> sound m t
| sound_rec : forall t fields, t_kind t = KRec fields -> fields <> [] -> NoDup (map fst fields) ->
    (forall n a, In (n, a) fields -> exists e, type_of m a = Some e /\ type_named m (t_name e) = Some e /\ sound m e) -> sound m t
| sound_strong : forall t c k, t_kind t = KStrong c -> class_of m c = Some k -> sound m t
| sound_weak : forall t c k path root, t_kind t = KWeak c path -> class_of m c = Some k -> class_named m "Root" = Some root -> leads m root path k -> sound m t.

Fixpoint leadsb (m : meta) (c : cdef) (path : list Z) (k : Z) : bool :=
  match path with
  | [] => false
  | a :: r =>
      match find (fun p => p_auid p =? a) (props c) with
      | None => false
      | Some p =>
          match type_of m (p_type p) with
          | None => false
          | Some t =>
              match t_kind t with
              | KSet e => match type_of m e with
                          | Some s => match t_kind s with
                                      | KStrong x => match class_of m x with
                                                     | Some d => match r with [] => x =? k | _ => leadsb m d r k end
                                                     | None => false end
                                      | _ => false end
                          | None => false
                          end
              | KStrong d => match class_of m d with Some d' => leadsb m d' r k | None => false end
              | _ => false
              end
          end
      end
  end.
Lemma leadsb_ok : forall m, (forall a c, class_of m a = Some c -> c_auid c = a) -> forall path c k kc, leadsb m c path k = true -> class_of m k = Some kc -> leads m c path kc.
Proof.
  intros m Hid. induction path as [|a r IH]; intros c k kc H K; cbn [leadsb] in H; [discriminate|].
  destruct (find (fun p => p_auid p =? a) (props c)) as [p|] eqn:F; [|discriminate]. apply find_some in F as [Ip Ea]. apply Z.eqb_eq in Ea. subst a.
  destruct (type_of m (p_type p)) as [t|] eqn:T; [|discriminate]. pose proof (Hid _ _ K) as Hk.
  destruct (t_kind t) eqn:Kt; try discriminate.
  - destruct (type_of m el) as [s|] eqn:S; [|discriminate]. destruct (t_kind s) eqn:Ks; try discriminate.
    destruct (class_of m cls) as [d|] eqn:D; [|discriminate]. pose proof (Hid _ _ D) as Hd. destruct r as [|a r].
    + apply Z.eqb_eq in H. subst cls k. eapply leads_set; eauto.
    + subst cls. eapply leads_in; eauto.
  - destruct (class_of m cls) as [d|] eqn:D; [|discriminate]. pose proof (Hid _ _ D) as Hd. subst cls. eapply leads_ref; eauto.
Qed.
Fixpoint soundb (fuel : nat) (m : meta) (t : tdef) : bool :=
  match fuel with
  | O => false
  | S fuel =>
      let el := fun a => match type_of m a with Some e => soundb fuel m e | None => false end in
      match t_kind t with
      | KInt size _ => existsb (Z.eqb size) [1; 2; 4; 8]
      | KStream | KOpaque | KChar | KIndirect | KExt _ => true
      | KGenChar size pid => (1 <=? size) && (size <=? 255) && (32768 <=? pid)
      | KEnum a _ => match type_of m a with Some e => match t_kind e with KInt _ _ => soundb fuel m e | _ => false end | None => false end
      | KVar a | KSet a | KString a | KRename a => el a
      | KFixed a n => (0 <? n) && (n <? 2 ^ 32) && el a
      | KRec fields => negb (match fields with [] => true | _ => false end) && nodupb String.eqb (map fst fields) &&
          forallb (fun f => match type_of m (snd f) with
                            | Some e => match type_named m (t_name e) with
                                        | Some e' => (t_auid e' =? t_auid e) && (t_auid e =? snd f) && soundb fuel m e
                                        | None => false end
                            | None => false end) fields
      | KStrong c => is_some (class_of m c)
      | KWeak c path => match class_named m "Root" with Some root => is_some (class_of m c) && leadsb m root path c | None => false end
      end
  end.
Lemma soundb_ok : forall m, (forall a c, class_of m a = Some c -> c_auid c = a) -> (forall n t, type_named m n = Some t -> type_of m (t_auid t) = Some t) ->
  forall fuel t, soundb fuel m t = true -> sound m t.
Proof.
  intros m Hid Hty. induction fuel as [|fuel IH]; intros t H; cbn [soundb] in H; [discriminate|].
  assert (El : forall el, In (t_kind t) [KVar el; KSet el; KString el; KRename el] -> (match type_of m el with Some e => soundb fuel m e | None => false end) = true -> sound m t).
  { intros el I E. destruct (type_of m el) eqn:T; [|discriminate]. eapply sound_elem; eauto. }
  destruct (t_kind t) eqn:K.
  - apply existsb_exists in H as (x & I & E). apply Z.eqb_eq in E. subst x. eapply sound_int; eauto.
  - destruct (type_of m el) as [e|] eqn:T; [|discriminate]. destruct (t_kind e) eqn:Ke; try discriminate. eapply sound_enum; eauto.
  - rewrite !andb_true_iff, forallb_forall in H. destruct H as ((H1 & H2) & H3). eapply sound_rec; eauto.
    + destruct fields; [discriminate|intros X; discriminate].
    + apply nodupS. auto.
    + intros n a I. specialize (H3 _ I). cbn [snd] in H3. destruct (type_of m a) as [e|] eqn:T; [|discriminate]. destruct (type_named m (t_name e)) as [e'|] eqn:N; [|discriminate].
      rewrite !andb_true_iff in H3. destruct H3 as ((E1 & E2) & E3). apply Z.eqb_eq in E1, E2. exists e. pose proof (Hty _ _ N) as N'. rewrite E1, E2, T in N'. injection N' as <-. auto.
  - rewrite !andb_true_iff in H. destruct H as ((H1 & H2) & H3). destruct (type_of m el) as [e|] eqn:T; [|discriminate]. eapply sound_fixed; eauto. lia.
  - apply (El el); cbn; auto.
  - apply (El el); cbn; auto.
  - apply (El el); cbn; auto.
  - apply sound_leaf. rewrite K. cbn. auto.
  - apply sound_leaf. rewrite K. cbn. auto.
  - eapply sound_ext; eauto.
  - apply sound_leaf. rewrite K. cbn. auto.
  - rewrite !andb_true_iff in H. eapply sound_genchar; eauto; lia.
  - apply sound_leaf. rewrite K. cbn. auto 6.
  - apply (El el); cbn; auto.
  - destruct (class_of m cls) eqn:C; [|discriminate]. eapply sound_strong; eauto.
  - destruct (class_named m "Root") as [root|] eqn:R; [|discriminate]. apply andb_true_iff in H as [H1 H2]. destruct (class_of m cls) eqn:C; [|discriminate].
    eapply sound_weak; eauto. eapply leadsb_ok; eauto.
Qed.
Definition registered (m : meta) (t : tdef) : Prop := exists a, type_of m a = Some t.
Lemma registered_by : forall m (P : tdef -> bool), forallb (fun x => match nth_error (m_theap m) (snd x) with Some t => P t | None => true end) (m_tauid m) = true ->
  forall t, registered m t -> P t = true.
Proof.
  intros m P H t (a & E). unfold type_of in E. destruct (zget (m_tauid m) a) as [h|] eqn:Z; [|discriminate]. apply zget_In in Z. rewrite forallb_forall in H. apply H in Z. cbn [snd] in Z. rewrite E in Z. auto.
Qed.
Definition types_forall (P : meta -> tdef -> bool) (m : meta) : bool :=
  forallb (fun x => match nth_error (m_theap m) (snd x) with Some t => P m t | None => true end) (m_tauid m).
(** by-name entries *)
Definition names_check (m : meta) : bool :=
  forallb (fun x => match nth_error (m_theap m) (snd x), zget (m_tauid m) (match nth_error (m_theap m) (snd x) with Some t => t_auid t | None => 0 end) with
                    | Some t, Some h => Nat.eqb h (snd x) && String.eqb (t_name t) (fst x) | _, _ => false end) (m_tname m) &&
  types_forall (fun m t => match sget (m_tname m) (t_name t), zget (m_tauid m) (t_auid t) with Some h, Some k => Nat.eqb h k | _, _ => false end) m &&
  forallb (fun x => match nth_error (m_theap m) (snd x) with Some t => t_auid t =? fst x | None => false end) (m_tauid m).
Lemma names_checked : both names_check.
Proof. split; vm_compute; reflexivity. Qed.
Lemma sget_In : forall d k v, sget d k = Some v -> In (k, v) d.
Proof.
  intros d k v. unfold sget. induction d as [|[a b] d IH]; cbn; [discriminate|]. destruct (String.eqb_spec a k) as [->|]; intros E; [injection E as ->; auto|auto].
Qed.
(** Types are found by name exactly as by identifier. *)
Theorem C59_type_names : forall m, built_in m ->
  (forall n t, type_named m n = Some t -> t_name t = n /\ type_of m (t_auid t) = Some t) /\
  (forall a t, type_of m a = Some t -> t_auid t = a /\ type_named m (t_name t) = Some t).
Proof.
  intros m H. pose proof (both_ok _ names_checked m H) as B. unfold names_check in B. rewrite !andb_true_iff in B. destruct B as ((B1 & B2) & B3). rewrite forallb_forall in B1, B3. split.
  - intros n t. unfold type_named, type_of. destruct (sget (m_tname m) n) as [h|] eqn:S; [|discriminate]. intros E. apply sget_In in S. apply B1 in S. cbn [fst snd] in S. rewrite E in S.
    destruct (zget (m_tauid m) (t_auid t)) as [k|]; [|discriminate]. apply andb_true_iff in S as [S1 S2]. apply Nat.eqb_eq in S1. apply String.eqb_eq in S2. subst k. auto.
  - intros a t E. assert (R : registered m t) by (exists a; auto). unfold type_of in E. destruct (zget (m_tauid m) a) as [h|] eqn:Z; [|discriminate].
    pose proof (zget_In _ _ _ _ Z) as I. apply B3 in I. cbn [fst snd] in I. rewrite E in I. apply Z.eqb_eq in I. split; auto. subst a.
    pose proof (registered_by m (fun t => match sget (m_tname m) (t_name t), zget (m_tauid m) (t_auid t) with Some h, Some k => Nat.eqb h k | _, _ => false end) B2 t R) as Q. cbv beta in Q.
    unfold type_named. destruct (sget (m_tname m) (t_name t)) as [k|]; [|discriminate]. rewrite Z in Q. apply Nat.eqb_eq in Q. subst k. auto.
Qed.
Lemma types_checked : both (types_forall (soundb 12)).
Proof. split; vm_compute; reflexivity. Qed.
Lemma built_in_ids : forall m, built_in m -> forall a c, class_of m a = Some c -> c_auid c = a.
Proof. intros m H. destruct (built_in_run m H) as (ops & F & E). apply (C60_lookups_agree ops m F E). Qed.
Theorem C59_types : forall m, built_in m -> forall t, registered m t -> sound m t.
Proof.
  intros m H t R. pose proof (both_ok _ types_checked m H) as B. pose proof (registered_by m _ B t R) as S. cbv beta in S.
  eapply soundb_ok; [apply built_in_ids; auto| |exact S]. intros n x N. apply (C59_type_names m H) in N. tauto.
Qed.

(** Every type can be stored: its format is one of those of properties.py:1333-1344. *)
Theorem C59_formats : forall m, built_in m -> forall t, registered m t ->
  exists f, store_format 12 m t = Ok f /\ In f [SF_DATA; SF_DATA_STREAM; SF_STRONG; SF_STRONG_VECTOR; SF_STRONG_SET; SF_WEAK; SF_WEAK_VECTOR; SF_WEAK_SET].
Proof.
  assert (B : both (types_forall (fun m t => match store_format 12 m t with
     | Ok f => existsb (Z.eqb f) [SF_DATA; SF_DATA_STREAM; SF_STRONG; SF_STRONG_VECTOR; SF_STRONG_SET; SF_WEAK; SF_WEAK_VECTOR; SF_WEAK_SET] | Err _ => false end))) by (split; vm_compute; reflexivity).
  intros m H t R. pose proof (registered_by m _ (both_ok _ B m H) t R) as S. cbv beta in S. destruct (store_format 12 m t) as [f|]; [|discriminate]. exists f. split; auto.
  apply existsb_exists in S as (x & I & E). apply Z.eqb_eq in E. subst x. auto.
Qed.

(** The value types that C40-C45 speak of are the ones registered under these names. *)
Definition value_types : list (string * typ) :=
  [("aafInt8", i8); ("aafInt16", i16); ("aafInt32", i32); ("aafInt64", TInt 8 true); ("aafUInt8", u8); ("aafUInt16", u16); ("aafUInt32", u32); ("aafUInt64", TInt 8 false);
   ("AUID", auid_t); ("MobIDType", mobid_t); ("Rational", rational_t); ("VersionType", version_t); ("DateStruct", date_t); ("TimeStruct", time_t); ("TimeStamp", stamp_t);
   ("aafString", TString); ("aafUUIDArray", uuid_array); ("aafStringArray", TVar (TChar false)); ("aafAUIDArray", TVar auid_t); ("AUIDSet", TSet auid_t);
   ("aafUInt8Array", TVar u8); ("aafDataValue", TVar u8); ("aafInt32Array", TVar i32); ("aafInt64Array", TVar (TInt 8 true)); ("aafUInt32Array", TVar u32); ("UInt32Set", TSet u32);
   ("aafPositionType", TRename (TInt 8 true)); ("aafLengthType", TRename (TInt 8 true))]%string.
Definition view {A} (r : result meta) (f : meta -> A) : option A := match r with Ok m => Some (f m) | Err _ => None end.
Lemma view_ok : forall A (f : meta -> A) r m v, view r f = Some v -> r = Ok m -> f m = v.
Proof. intros A f r m v H ->. injection H as H. exact H. Qed.
Lemma some_inj : forall A (x y : A), Some x = Some y -> x = y.
Proof. intros A x y [= H]. exact H. Qed.
Definition typ_at (m : meta) (n : string) : option (result typ) := option_map (typ_in 12 m) (type_named m n).
Theorem C59_value_types : forall m, built_in m -> forall n T, In (n, T) value_types -> exists t, type_named m n = Some t /\ typ_in 12 m t = Ok T.
Proof.
  assert (B : view base_model (fun m => map (fun x => typ_at m (fst x)) value_types) = Some (map (fun x => Some (Ok (snd x))) value_types)) by (vm_compute; reflexivity).
  assert (G : view full_model (fun m => map (fun x => typ_at m (fst x)) value_types) = Some (map (fun x => Some (Ok (snd x))) value_types)) by (vm_compute; reflexivity).
  intros m H n T I. assert (E : map (fun x => typ_at m (fst x)) value_types = map (fun x => Some (Ok (snd x))) value_types).
  { destruct H as [H|H]; [exact (view_ok _ _ _ _ _ B H)|exact (view_ok _ _ _ _ _ G H)]. }
  assert (K : typ_at m n = Some (Ok T)).
  { clear - E I. revert E I. generalize value_types. induction l as [|x l IH]; intros E I; [destruct I|]. cbn [map] in E. injection E as E1 E2. destruct I as [->|I]; auto. }
  unfold typ_at in K. destruct (type_named m n) as [t|]; cbn [option_map] in K; [|discriminate]. exists t. exact (conj eq_refl (some_inj _ _ _ K)).
Qed.

(** ** Enumerations *)
Definition zlist_in (x : list Z) (l : list (list Z)) : bool := existsb (zlist_eqb x) l.
Definition asciib (s : list Z) : bool := forallb (fun c => (1 <=? c) && (c <? 128)) s.
Lemma ascii_good : forall s, asciib s = true -> good_name s.
Proof.
  intros s H. unfold asciib in H. rewrite forallb_forall in H. split.
  - apply Forall_forall. intros c Hc. apply H in Hc. unfold scalar. lia.
  - intros X. apply H in X. lia.
Qed.
Lemma nodupL : forall l, nodupb zlist_eqb l = true -> NoDup l.
Proof. apply nodupb_ok. intros x y ->. apply zlist_eqb_refl. Qed.
Definition rows (items : list (Z * string)) : list (Z * list Z) := map (fun i => (fst i, codes (snd i))) items.
Definition in_range (size : Z) (sg : bool) (z : Z) : bool := if sg then (- 2 ^ (8 * size - 1) <=? z) && (z <? 2 ^ (8 * size - 1)) else (0 <=? z) && (z <? 2 ^ (8 * size)).
Definition enum_check (m : meta) (t : tdef) : bool :=
  match t_kind t with
  | KEnum el items =>
      match type_of m el with
      | Some e => match t_kind e with
                  | KInt size sg => existsb (Z.eqb size) [1; 2; 4; 8] && nodupb Z.eqb (map fst (rows items)) && nodupb zlist_eqb (map snd (rows items)) &&
                      forallb (fun x => asciib (snd x) && in_range size sg (fst x) && in_range 8 true (fst x)) (rows items) && negb (match items with [] => true | _ => false end)
                  | _ => false end
      | None => false end
  | _ => true
  end.
Lemma enums_checked : both (types_forall enum_check).
Proof. split; vm_compute; reflexivity. Qed.
Lemma in_range_ok : forall size sg z, in_range size sg z = true -> int_range size sg z.
Proof. intros size sg z. unfold in_range, int_range. destruct sg; lia. Qed.
Lemma typ_in_enum : forall n m t el items e size sg, t_kind t = KEnum el items -> type_of m el = Some e -> t_kind e = KInt size sg ->
  typ_in (S (S n)) m t = (do x <- enum_new (rows items) ;; Ok (TEnum (t_auid t =? BOOLEAN) (TInt size sg) (fst x) (snd x))).
Proof. intros n m t el items e size sg K E Ke. cbn [typ_in]. rewrite K, E, Ke. reflexivity. Qed.
(** Each enumeration of the model other than Boolean stores each of its names as its value in the
    integer type below it, reads it back, and refuses every other name. *)
Theorem C59_enums : forall lower set_iter m, built_in m -> forall t el items, registered m t -> t_kind t = KEnum el items -> t_auid t <> BOOLEAN ->
  exists size sg T, int_size size /\ typ_in 12 m t = Ok T /\ items <> [] /\
    (forall z s, In (z, s) items -> exists d, encode lower set_iter T (VStr (codes s)) = Ok d /\ encode lower set_iter (TInt size sg) (VInt z) = Ok d /\ decode T d = Ok (VStr (codes s))) /\
    (forall s, ~ In s (map (fun i => codes (snd i)) items) -> encode lower set_iter T (VStr s) = Err PropertyError).
Proof.
  intros lower set_iter m H t el items R K NB. pose proof (registered_by m _ (both_ok _ enums_checked m H) t R) as B. cbv beta in B. unfold enum_check in B. rewrite K in B.
  destruct (type_of m el) as [e|] eqn:E; [|discriminate]. destruct (t_kind e) eqn:Ke; try discriminate. rewrite !andb_true_iff in B. destruct B as ((((B1 & B2) & B3) & B4) & B5).
  assert (Hs : int_size size). { apply existsb_exists in B1 as (x & I & X). apply Z.eqb_eq in X. subst x. unfold int_size. cbn in I. intuition. }
  rewrite forallb_forall in B4.
  assert (Ht : enum_table (rows items)).
  { split; [apply nodupZ; auto|]. apply Forall_forall. intros x I. apply B4 in I. rewrite !andb_true_iff in I. destruct I as ((I1 & I2) & I3). split; [apply ascii_good; auto|]. apply in_range_ok in I3. cbn in I3. lia. }
  assert (Hr : Forall (fun x => int_range size signed (fst x)) (rows items)).
  { apply Forall_forall. intros x I. apply B4 in I. rewrite !andb_true_iff in I. apply in_range_ok. tauto. }
  destruct (C43_enum_names lower set_iter (rows items) size signed Ht (nodupL _ B3) Hs Hr) as (ns & vs & En & Hn & Hu & _).
  exists size, signed, (TEnum false (TInt size signed) ns vs). split; auto. split; [|split; [|split]].
  - rewrite (typ_in_enum _ _ _ _ _ _ _ _ K E Ke), En. cbn [bind fst snd]. apply Z.eqb_neq in NB. rewrite NB. reflexivity.
  - intros ->. discriminate.
  - intros z s I. destruct (Hn z (codes s)) as (d & D1 & _ & D3 & D4); [unfold rows; apply in_map_iff; exists (z, s); auto|]. eauto.
  - intros s I. apply Hu. intros z s' I'. split; [|split; [discriminate|intros b; discriminate]]. intros [= ->]. apply I. unfold rows in I'. apply in_map_iff in I' as ((z' & s'') & Q & I'). cbn in Q.
    apply in_map_iff. exists (z', s''). cbn. split; [congruence|auto].
Qed.
Definition ext_rows (items : list (Z * string)) : list (list Z * list Z) := map (fun i => (auid_bytes (fst i), codes (snd i))) items.
(** the lower case of ASCII text *)
Definition lower_ascii (s : list Z) : list Z := map (fun c => if (65 <=? c) && (c <=? 90) then c + 32 else c) s.
Definition ext_check (m : meta) (t : tdef) : bool :=
  match t_kind t with
  | KExt items => nodupb zlist_eqb (map fst (ext_rows items)) && nodupb zlist_eqb (map (fun x => lower_ascii (snd x)) (ext_rows items)) &&
      forallb (fun x => asciib (snd x) && forallb (fun b => (0 <=? b) && (b <? 256)) (fst x) && (List.length (fst x) =? 16)%nat) (ext_rows items)
  | _ => true
  end.
Lemma exts_checked : both (types_forall ext_check).
Proof. split; vm_compute; reflexivity. Qed.
Lemma typ_in_ext : forall n m t items, t_kind t = KExt items -> typ_in (S n) m t = (do x <- ext_new (ext_rows items) ;; Ok (TExtEnum (fst x) (snd x))).
Proof. intros n m t items K. cbn [typ_in]. rewrite K. reflexivity. Qed.
(** The same of extendible enumerations, whose names are compared in lower case. *)
Theorem C59_ext_enums : forall lower set_iter, (forall s, asciib s = true -> lower s = lower_ascii s) ->
  forall m, built_in m -> forall t items, registered m t -> t_kind t = KExt items ->
  exists T, typ_in 12 m t = Ok T /\ forall a s, In (a, s) items ->
    encode lower set_iter T (VStr (codes s)) = Ok (auid_bytes a) /\ encode lower set_iter T (VAuid (auid_bytes a)) = Ok (auid_bytes a) /\ decode T (auid_bytes a) = Ok (VStr (codes s)).
Proof.
  intros lower set_iter Hl m H t items R K. pose proof (registered_by m _ (both_ok _ exts_checked m H) t R) as B. cbv beta in B. unfold ext_check in B. rewrite K in B.
  rewrite !andb_true_iff in B. destruct B as ((B1 & B2) & B3). rewrite forallb_forall in B3.
  assert (Ht : ext_table (ext_rows items)).
  { split; [apply nodupL; auto|]. apply Forall_forall. intros x I. apply B3 in I. rewrite !andb_true_iff in I. destruct I as ((I1 & I2) & I3). split; [apply ascii_good; auto|].
    split; [|apply Nat.eqb_eq; auto]. apply Forall_forall. intros b Ib. rewrite forallb_forall in I2. apply I2 in Ib. unfold is_byte. lia. }
  assert (Hn : NoDup (map (fun x => lower (snd x)) (ext_rows items))).
  { erewrite map_ext_in; [apply nodupL; exact B2|]. intros x I. cbv beta. apply Hl. apply B3 in I. rewrite !andb_true_iff in I. tauto. }
  destruct (C43_extenum_names lower set_iter (ext_rows items) Ht Hn) as (ns & vs & En & Hi & _).
  exists (TExtEnum ns vs). split; [rewrite (typ_in_ext _ _ _ _ K), En; reflexivity|].
  intros a s I. apply Hi. apply in_map_iff. exists (a, s). auto.
Qed.

(** ** Keys of sets and weak references *)
(** The set types of strong and weak references, and their class *)
Definition set_of (m : meta) (t : tdef) (k : cdef) : Prop :=
  exists el e, t_kind t = KSet el /\ type_of m el = Some e /\ (t_kind e = KStrong (c_auid k) \/ exists path, t_kind e = KWeak (c_auid k) path) /\ class_of m (c_auid k) = Some k.
Definition DESCRIPTIVE_OBJECT_SET : string := "kAAFTypeID_DescriptiveObjectStrongReferenceSet".
Definition key_check (m : meta) (k : cdef) : bool :=
  match relatives m k, unique_key_pid m k, unique_key_size m k with
  | Ok l, Ok (Some pid), Ok n =>
      match find (fun p => (p_pid p =? pid) && p_uniq p) (flat_map props l) with
      | Some p => match type_of m (p_type p) with
                  | Some t => match typ_in 12 m t with Ok T => match byte_size T with Ok b => b =? n | Err _ => false end | Err _ => false end
                  | None => false end
      | None => false end
  | _, _, _ => false
  end.
Definition set_class (m : meta) (t : tdef) : option cdef :=
  match t_kind t with
  | KSet el => match type_of m el with
               | Some e => match t_kind e with KStrong c => class_of m c | KWeak c _ => class_of m c | _ => None end
               | None => None end
  | _ => None
  end.
Lemma set_class_of : forall m t k, set_of m t k -> set_class m t = Some k.
Proof. intros m t k (el & e & K & E & [S|[path S]] & C); unfold set_class; rewrite K, E, S; auto. Qed.
Lemma keys_checked : both (types_forall (fun m t => match set_class m t with Some k => String.eqb (t_name t) DESCRIPTIVE_OBJECT_SET || key_check m k | None => true end)).
Proof. split; vm_compute; reflexivity. Qed.
(** Full statement: for every set type of objects, the key that the set's index records (property id
    and size) is a property marked unique of the class, whose type has that size. It fails for
    DescriptiveObject sets ([C59_keyless_refuted]) and is proved for the others. *)
Theorem C59_keys_partial : forall m, built_in m -> forall t k, registered m t -> set_of m t k -> t_name t <> DESCRIPTIVE_OBJECT_SET ->
  exists l p pt T n, chain m k l /\ In p (flat_map props l) /\ p_uniq p = true /\ unique_key_pid m k = Ok (Some (p_pid p)) /\
    type_of m (p_type p) = Some pt /\ typ_in 12 m pt = Ok T /\ byte_size T = Ok n /\ unique_key_size m k = Ok n.
Proof.
  intros m H t k R S N. pose proof (registered_by m _ (both_ok _ keys_checked m H) t R) as B. cbv beta in B. rewrite (set_class_of _ _ _ S) in B.
  apply String.eqb_neq in N. rewrite N in B. cbn [orb] in B. unfold key_check in B.
  destruct (relatives m k) as [l|] eqn:El; [|discriminate]. destruct (unique_key_pid m k) as [[pid|]|] eqn:Ep; try discriminate. destruct (unique_key_size m k) as [n|] eqn:En; [|discriminate].
  destruct (find (fun p => (p_pid p =? pid) && p_uniq p) (flat_map props l)) as [p|] eqn:F; [|discriminate]. apply find_some in F as [I F]. apply andb_true_iff in F as [F1 F2]. apply Z.eqb_eq in F1.
  destruct (type_of m (p_type p)) as [pt|] eqn:T; [|discriminate]. destruct (typ_in 12 m pt) as [Ty|] eqn:Ty'; [|discriminate]. destruct (byte_size Ty) as [b|] eqn:Eb; [|discriminate]. apply Z.eqb_eq in B. subst b pid.
  exists l, p, pt, Ty, n. split; [apply chain_lineage, relatives_iff; auto|]. auto 10.
Qed.
(** The set of DescriptiveObjects has no key, so nothing can be written to it (properties.py:890-893). *)
Theorem C59_keyless_refuted : forall m, full_model = Ok m -> exists t k, registered m t /\ t_name t = DESCRIPTIVE_OBJECT_SET /\ set_of m t k /\ unique_key_pid m k = Ok None.
Proof.
  assert (G : holds full_model (fun m => match type_named m DESCRIPTIVE_OBJECT_SET with
    | Some t => match t_kind t with KSet el => match type_of m el with Some e => match t_kind e with KStrong c => match class_of m c with
        Some k => match unique_key_pid m k with Ok None => c_auid k =? c | _ => false end | None => false end | _ => false end | None => false end | _ => false end | None => false end) = true) by (vm_compute; reflexivity).
  intros m H. pose proof (holds_ok _ _ _ G H) as B. cbv beta in B. assert (Hb : built_in m) by (right; exact H). clear G H.
  destruct (type_named m DESCRIPTIVE_OBJECT_SET) as [t|] eqn:T; [|discriminate]. destruct (t_kind t) eqn:K; try discriminate. destruct (type_of m el) as [e|] eqn:E; [|discriminate].
  destruct (t_kind e) eqn:Ke; try discriminate. destruct (class_of m cls) as [k|] eqn:C; [|discriminate]. destruct (unique_key_pid m k) as [[|]|] eqn:U; try discriminate. apply Z.eqb_eq in B. subst cls.
  destruct (C59_type_names m Hb) as [Q _]. destruct (Q _ _ T) as [N A]. exists t, k. split; [exists (t_auid t); auto|]. split; auto. split; auto.
  exists el, e. auto.
Qed.
(** The key size of a class below Mob is 16 although its key, the MobID, has 32 bytes: the test for
    Mob asks whether the class is an ancestor of Mob (metadict.py:185-201). A set or weak reference
    whose type names such a class would write wrong sizes; the model has none ([C59_keys_partial]). *)
Theorem C59_subclass_key_refuted : forall m, built_in m -> exists k mob, class_named m "SourceMob" = Some k /\ class_of m MOB = Some mob /\ c_parent k = c_auid mob /\
  unique_key_pid m k = unique_key_pid m mob /\ unique_key_size m mob = Ok 32 /\ unique_key_size m k = Ok 16.
Proof.
  assert (B : both (fun m => match class_named m "SourceMob", class_of m MOB with
    | Some k, Some mob => (c_parent k =? c_auid mob) && match unique_key_pid m k, unique_key_pid m mob, unique_key_size m mob, unique_key_size m k with
       | Ok (Some a), Ok (Some b), Ok x, Ok y => (a =? b) && (x =? 32) && (y =? 16) | _, _, _, _ => false end
    | _, _ => false end)) by (split; vm_compute; reflexivity).
  intros m H. pose proof (both_ok _ B m H) as Q. cbv beta in Q. destruct (class_named m "SourceMob") as [k|]; [|discriminate]. destruct (class_of m MOB) as [mob|]; [|discriminate].
  apply andb_true_iff in Q as [Q1 Q]. destruct (unique_key_pid m k) as [[a|]|] eqn:E1; try discriminate. destruct (unique_key_pid m mob) as [[b|]|] eqn:E2; try discriminate.
  destruct (unique_key_size m mob) as [x|] eqn:E3; [|discriminate]. destruct (unique_key_size m k) as [y|] eqn:E4; [|discriminate]. rewrite !andb_true_iff, !Z.eqb_eq in Q. destruct Q as ((-> & ->) & ->).
  apply Z.eqb_eq in Q1. exists k, mob. rewrite E1, E2, E3, E4. auto 8.
Qed.
(** A position does not fit aafPositionArray: its elements are UInt8 (typedefs.py:361) while
    aafPositionType is Int64 (typedefs.py:386). *)
Theorem C59_position_array_refuted : forall m, built_in m -> exists pos arr, type_named m "aafPositionType" = Some pos /\ type_named m "aafPositionArray" = Some arr /\
  typ_in 12 m pos = Ok (TRename (TInt 8 true)) /\ typ_in 12 m arr = Ok (TVar u8).
Proof.
  assert (B : view base_model (fun m => (typ_at m "aafPositionType", typ_at m "aafPositionArray")) = Some (Some (Ok (TRename (TInt 8 true))), Some (Ok (TVar u8)))) by (vm_compute; reflexivity).
  assert (G : view full_model (fun m => (typ_at m "aafPositionType", typ_at m "aafPositionArray")) = Some (Some (Ok (TRename (TInt 8 true))), Some (Ok (TVar u8)))) by (vm_compute; reflexivity).
  intros m H. assert (E : (typ_at m "aafPositionType", typ_at m "aafPositionArray") = (Some (Ok (TRename (TInt 8 true))), Some (Ok (TVar u8)))).
  { destruct H as [H|H]; [exact (view_ok _ _ _ _ _ B H)|exact (view_ok _ _ _ _ _ G H)]. }
  assert (E1 : typ_at m "aafPositionType" = Some (Ok (TRename (TInt 8 true)))) by exact (f_equal fst E).
  assert (E2 : typ_at m "aafPositionArray" = Some (Ok (TVar u8))) by exact (f_equal snd E). clear - E1 E2. unfold typ_at in *.
  destruct (type_named m "aafPositionType") as [pos|]; cbn [option_map] in E1; [|discriminate]. destruct (type_named m "aafPositionArray") as [arr|]; cbn [option_map] in E2; [|discriminate].
  exists pos, arr. split; [reflexivity|]. split; [reflexivity|]. split; [exact (some_inj _ _ _ E1)|exact (some_inj _ _ _ E2)].
Qed.

(** The model exists, with 119 classes and 188 types. *)
Example C59_case : exists m, full_model = Ok m /\ List.length (m_heap m) = 119%nat /\ List.length (m_tauid m) = 188%nat /\
  (exists c l, class_named m "SourceMob" = Some c /\ chain m c l /\ map c_name l = ["SourceMob"; "Mob"; "InterchangeObject"]%string).
Proof.
  assert (G : holds full_model (fun m => (List.length (m_heap m) =? 119)%nat && (List.length (m_tauid m) =? 188)%nat && match class_named m "SourceMob" with
    | Some c => match relatives m c with Ok l => match list_eq_dec string_dec (map c_name l) ["SourceMob"; "Mob"; "InterchangeObject"]%string with left _ => true | right _ => false end | Err _ => false end
    | None => false end) = true) by (vm_compute; reflexivity).
  assert (X : exists m, full_model = Ok m). { clear G. assert (Y : view full_model (fun _ => tt) = Some tt) by (vm_compute; reflexivity). revert Y. generalize full_model. intros [m|]; [eauto|discriminate]. }
  destruct X as [m H]. exists m. split; [exact H|]. pose proof (holds_ok _ _ _ G H) as B. cbv beta in B. clear G H. rewrite !andb_true_iff in B. destruct B as ((B1 & B2) & B3).
  split; [apply Nat.eqb_eq; auto|]. split; [apply Nat.eqb_eq; auto|].
  destruct (class_named m "SourceMob") as [c|]; [|discriminate]. destruct (relatives m c) as [l|] eqn:El; [|discriminate]. destruct (list_eq_dec string_dec (map c_name l) _) as [E|]; [|discriminate].
  exists c, l. split; auto. split; [apply chain_lineage, relatives_iff; auto|auto].
Qed.
(** An object of class SourceMob with only a MobID: its own property, one it could have, one required. *)
Example C62_case : view full_model (fun m => match class_named m "SourceMob" with
  | Some c => Some (get_property 12 m c [0x4401] "MobID", match get_property 12 m c [0x4401] "Slots" with Ok (Fresh p f) => Some (p_name p, f) | _ => None end,
                    get_property 12 m c [0x4401] "Nonsense", do l <- missing_properties m c [0x4401] ;; Ok (map p_name l))
  | None => None end) = Some (Some (Ok (Entry 0x4401), Some ("Slots"%string, SF_STRONG_VECTOR), Ok Missing, Ok ["EssenceDescription"; "Slots"; "LastModified"; "CreationTime"]%string)).
Proof. vm_compute. reflexivity. Qed.

Print Assumptions C59_classes.
Print Assumptions C59_aliases.
Print Assumptions C59_lookups.
Print Assumptions C59_type_names.
Print Assumptions C59_types.
Print Assumptions C59_formats.
Print Assumptions C59_value_types.
Print Assumptions C59_enums.
Print Assumptions C59_ext_enums.
Print Assumptions C59_keys_partial.
Print Assumptions C59_keyless_refuted.
Print Assumptions C59_subclass_key_refuted.
Print Assumptions C59_position_array_refuted.
