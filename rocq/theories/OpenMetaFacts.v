(** Lemmas about opening a file's dictionary (OpenMetaModel). *)
From Verif Require Import Base BaseFacts TypesModel TimelineModel MetaModel MetaFacts MetaTables OpenMetaModel.
From Coq Require Import ZArith List Bool String Lia.
Import ListNotations.
Open Scope Z_scope.

(** ** Loading *)

(** the dictionaries point to objects of the heaps, and a definition is found by its own identifier *)
Definition wf (m : meta) : Prop :=
  (forall n h, sget (m_cname m) n = Some h -> exists c, nth_error (m_heap m) h = Some c) /\
  (forall a h, zget (m_cauid m) a = Some h -> exists c, nth_error (m_heap m) h = Some c /\ c_auid c = a) /\
  (forall n h, sget (m_tname m) n = Some h -> exists t, nth_error (m_theap m) h = Some t) /\
  (forall a h, zget (m_tauid m) a = Some h -> exists t, nth_error (m_theap m) h = Some t /\ t_auid t = a).

Lemma nth_new : forall A (l : list A) x, nth_error (l ++ [x]) (List.length l) = Some x.
Proof. intros A l x. rewrite nth_error_app2 by lia. rewrite Nat.sub_diag. reflexivity. Qed.

Lemma load_type_wf : forall m t, wf m -> wf (load_type m t).
Proof.
  intros m t (A & B & C & D). split; [exact A|split; [exact B|split]]; cbn [load_type m_tname m_tauid m_theap].
  - intros n h. rewrite sget_set. destruct (String.eqb (t_name t) n); intros E; [injection E as <-; exists t; apply nth_new|].
    apply C in E as (x & E). exists x. apply nth_app_old; auto.
  - intros a h. rewrite zget_set. destruct (Z.eqb_spec (t_auid t) a) as [Q|Q]; intros E; [injection E as <-; exists t; split; [apply nth_new|auto]|].
    apply D in E as (x & E & Ex). exists x. split; [apply nth_app_old; auto|auto].
Qed.
Lemma load_class_wf : forall m c, wf m -> wf (load_class m c).
Proof.
  intros m c (A & B & C & D). split; [|split; [|split; [exact C|exact D]]]; cbn [load_class m_cname m_cauid m_heap].
  - intros n h. rewrite sget_set. destruct (String.eqb (c_name c) n); intros E; [injection E as <-; exists (read_class c); apply nth_new|].
    apply A in E as (x & E). exists x. apply nth_app_old; auto.
  - intros a h. rewrite zget_set. destruct (Z.eqb_spec (c_auid c) a) as [Q|Q]; intros E; [injection E as <-; exists (read_class c); split; [apply nth_new|auto]|].
    apply B in E as (x & E & Ex). exists x. split; [apply nth_app_old; auto|auto].
Qed.

Lemma load_type_of : forall m t a, wf m -> type_of (load_type m t) a = if t_auid t =? a then Some t else type_of m a.
Proof.
  intros m t a (_ & _ & _ & D). unfold type_of. cbn [load_type m_tauid m_theap]. rewrite zget_set. destruct (t_auid t =? a); [apply nth_new|].
  destruct (zget (m_tauid m) a) as [h|] eqn:E; [|reflexivity]. apply D in E as (x & E & _). rewrite E. apply nth_app_old; auto.
Qed.
Lemma load_type_named : forall m t n, wf m -> type_named (load_type m t) n = if String.eqb (t_name t) n then Some t else type_named m n.
Proof.
  intros m t n (_ & _ & C & _). unfold type_named. cbn [load_type m_tname m_theap]. rewrite sget_set. destruct (String.eqb (t_name t) n); [apply nth_new|].
  destruct (sget (m_tname m) n) as [h|] eqn:E; [|reflexivity]. apply C in E as (x & E). rewrite E. apply nth_app_old; auto.
Qed.
Lemma load_class_of : forall m c a, wf m -> class_of (load_class m c) a = if c_auid c =? a then Some (read_class c) else class_of m a.
Proof.
  intros m c a (_ & B & _). unfold class_of. cbn [load_class m_cauid m_heap]. rewrite zget_set. destruct (c_auid c =? a); [apply nth_new|].
  destruct (zget (m_cauid m) a) as [h|] eqn:E; [|reflexivity]. apply B in E as (x & E & _). rewrite E. apply nth_app_old; auto.
Qed.
Lemma load_class_named : forall m c n, wf m -> class_named (load_class m c) n = if String.eqb (c_name c) n then Some (read_class c) else class_named m n.
Proof.
  intros m c n (A & _). unfold class_named. cbn [load_class m_cname m_heap]. rewrite sget_set. destruct (String.eqb (c_name c) n); [apply nth_new|].
  destruct (sget (m_cname m) n) as [h|] eqn:E; [|reflexivity]. apply A in E as (x & E). rewrite E. apply nth_app_old; auto.
Qed.

(** all of them: the last one of a key counts *)
Lemma load_types : forall ft m, wf m -> let m' := fold_left load_type ft m in
  wf m' /\
  (m_heap m' = m_heap m /\ m_cname m' = m_cname m /\ m_cauid m' = m_cauid m /\ m_cset m' = m_cset m /\ m_tset m' = m_tset m /\ m_pids m' = m_pids m) /\
  (forall a, ~ In a (map t_auid ft) -> type_of m' a = type_of m a) /\
  (forall n, ~ In n (map t_name ft) -> type_named m' n = type_named m n) /\
  (NoDup (map t_auid ft) -> forall t, In t ft -> type_of m' (t_auid t) = Some t) /\
  (NoDup (map t_name ft) -> forall t, In t ft -> type_named m' (t_name t) = Some t).
Proof.
  induction ft as [|x ft IH]; intros m W; cbn [fold_left].
  - split; [auto|]. split; [repeat split|]. split; [auto|]. split; [auto|]. split; intros _ t [].
  - destruct (IH (load_type m x) (load_type_wf m x W)) as (I1 & I2 & I3 & I4 & I5 & I6). cbv zeta. split; [auto|]. split; [exact I2|].
    split; [|split; [|split]].
    + intros a N. cbn [map In] in N. rewrite I3 by tauto. rewrite load_type_of by auto. destruct (Z.eqb_spec (t_auid x) a); [tauto|reflexivity].
    + intros n N. cbn [map In] in N. rewrite I4 by tauto. rewrite load_type_named by auto. destruct (String.eqb_spec (t_name x) n); [tauto|reflexivity].
    + cbn [map]. intros N t [<-|I]; inversion N; subst; [|auto]. rewrite I3 by auto. rewrite load_type_of by auto. rewrite Z.eqb_refl. reflexivity.
    + cbn [map]. intros N t [<-|I]; inversion N; subst; [|auto]. rewrite I4 by auto. rewrite load_type_named by auto. rewrite String.eqb_refl. reflexivity.
Qed.
Lemma load_classes : forall fc m, wf m -> let m' := fold_left load_class fc m in
  wf m' /\
  (m_theap m' = m_theap m /\ m_tname m' = m_tname m /\ m_tauid m' = m_tauid m /\ m_cset m' = m_cset m /\ m_tset m' = m_tset m /\ fst (m_pids m') = fst (m_pids m)) /\
  (forall x, In x (snd (m_pids m')) <-> In x (snd (m_pids m)) \/ exists c, In c fc /\ In x (dynamic_ids c)) /\
  (forall a, ~ In a (map c_auid fc) -> class_of m' a = class_of m a) /\
  (forall n, ~ In n (map c_name fc) -> class_named m' n = class_named m n) /\
  (NoDup (map c_auid fc) -> forall c, In c fc -> class_of m' (c_auid c) = Some (read_class c)) /\
  (NoDup (map c_name fc) -> forall c, In c fc -> class_named m' (c_name c) = Some (read_class c)).
Proof.
  induction fc as [|x fc IH]; intros m W; cbn [fold_left].
  - split; [auto|]. split; [repeat split|]. split; [intros y; split; [auto|intros [H|(c & [] & _)]; auto]|]. split; [auto|]. split; [auto|]. split; intros _ t [].
  - destruct (IH (load_class m x) (load_class_wf m x W)) as (I1 & I2 & I7 & I3 & I4 & I5 & I6). cbv zeta. split; [auto|]. split; [exact I2|].
    split; [|split; [|split; [|split]]].
    + intros y. rewrite I7. cbn [load_class m_pids snd]. rewrite in_app_iff. split.
      * intros [[H|H]|(c & H1 & H2)]; [right; exists x; cbn; auto|auto|right; exists c; cbn; auto].
      * intros [H|(c & [<-|H1] & H2)]; [auto|auto|right; exists c; auto].
    + intros a N. cbn [map In] in N. rewrite I3 by tauto. rewrite load_class_of by auto. destruct (Z.eqb_spec (c_auid x) a); [tauto|reflexivity].
    + intros n N. cbn [map In] in N. rewrite I4 by tauto. rewrite load_class_named by auto. destruct (String.eqb_spec (c_name x) n); [tauto|reflexivity].
    + cbn [map]. intros N t [<-|I]; inversion N; subst; [|auto]. rewrite I3 by auto. rewrite load_class_of by auto. rewrite Z.eqb_refl. reflexivity.
    + cbn [map]. intros N t [<-|I]; inversion N; subst; [|auto]. rewrite I4 by auto. rewrite load_class_named by auto. rewrite String.eqb_refl. reflexivity.
Qed.

(** what is found after loading *)
Lemma load_ok : forall m fc ft, wf m -> let m' := load m fc ft in
  wf m' /\ m_cset m' = map c_auid fc /\ m_tset m' = map t_auid ft /\ fst (m_pids m') = fst (m_pids m) /\
  (forall x, In x (snd (m_pids m')) <-> exists c, In c fc /\ In x (dynamic_ids c)) /\
  (forall a, ~ In a (map t_auid ft) -> type_of m' a = type_of m a) /\
  (forall n, ~ In n (map t_name ft) -> type_named m' n = type_named m n) /\
  (NoDup (map t_auid ft) -> forall t, In t ft -> type_of m' (t_auid t) = Some t) /\
  (NoDup (map t_name ft) -> forall t, In t ft -> type_named m' (t_name t) = Some t) /\
  (forall a, ~ In a (map c_auid fc) -> class_of m' a = class_of m a) /\
  (forall n, ~ In n (map c_name fc) -> class_named m' n = class_named m n) /\
  (NoDup (map c_auid fc) -> forall c, In c fc -> class_of m' (c_auid c) = Some (read_class c)) /\
  (NoDup (map c_name fc) -> forall c, In c fc -> class_named m' (c_name c) = Some (read_class c)).
Proof.
  intros m fc ft W. cbv zeta. unfold load.
  assert (W0 : wf (emptied m fc ft)) by exact W.
  destruct (load_types ft (emptied m fc ft) W0) as (A1 & (A2 & A3 & A4 & A5 & A6 & A7) & A8 & A9 & A10 & A11).
  set (m1 := fold_left load_type ft (emptied m fc ft)) in *.
  destruct (load_classes fc m1 A1) as (B1 & (B2 & B3 & B4 & B5 & B6 & B7) & B8 & B9 & B10 & B11 & B12).
  set (m2 := fold_left load_class fc m1) in *.
  assert (T : forall a, type_of m2 a = type_of m1 a) by (intros a; unfold type_of; rewrite B4, B2; reflexivity).
  assert (N : forall n, type_named m2 n = type_named m1 n) by (intros n; unfold type_named; rewrite B3, B2; reflexivity).
  split; [exact B1|]. split; [rewrite B5; exact A5|]. split; [rewrite B6; exact A6|]. split; [rewrite B7, A7; reflexivity|].
  split; [intros x; rewrite B8, A7; cbn [emptied m_pids snd]; split; [intros [[]|H]; exact H|intros H; right; exact H]|].
  split; [intros a H; rewrite T; apply (A8 a H)|]. split; [intros a H; rewrite N; apply (A9 a H)|].
  split; [intros D t H; rewrite T; apply (A10 D t H)|]. split; [intros D t H; rewrite N; apply (A11 D t H)|].
  split; [intros a H; rewrite B9 by auto; unfold class_of; rewrite A4, A2; reflexivity|].
  split; [intros a H; rewrite B10 by auto; unfold class_named; rewrite A3, A2; reflexivity|]. split; [exact B11|exact B12].
Qed.

(** ** Only ids change *)

(** the same property, except for a dynamic id *)
Definition same_pdef (p p' : pdef) : Prop :=
  p_name p' = p_name p /\ p_auid p' = p_auid p /\ p_type p' = p_type p /\ p_opt p' = p_opt p /\ p_uniq p' = p_uniq p /\
  (p_pid p < 32768 -> p_pid p' = p_pid p).
Definition same_cdef (c c' : cdef) : Prop :=
  same_head c c' /\ Forall2 (fun x x' => fst x' = fst x /\ same_pdef (snd x) (snd x')) (c_props c) (c_props c').
(** the same type, except for the id under which a generic character has its size *)
Definition same_tdef (t t' : tdef) : Prop :=
  t_name t' = t_name t /\ t_auid t' = t_auid t /\
  match t_kind t with KGenChar s _ => exists pid, t_kind t' = KGenChar s pid | k => t_kind t' = k end.
Definition only_ids (m m' : meta) : Prop :=
  m_cname m' = m_cname m /\ m_cauid m' = m_cauid m /\ m_tname m' = m_tname m /\ m_tauid m' = m_tauid m /\
  (forall h c, nth_error (m_heap m) h = Some c -> exists c', nth_error (m_heap m') h = Some c' /\ same_cdef c c') /\
  (forall h t, nth_error (m_theap m) h = Some t -> exists t', nth_error (m_theap m') h = Some t' /\ same_tdef t t').
Lemma same_pdef_refl : forall p, same_pdef p p.
Proof. intros p. repeat split; auto. Qed.
Lemma same_pdef_trans : forall a b c, same_pdef a b -> same_pdef b c -> same_pdef a c.
Proof.
  intros a b c (A1 & A2 & A3 & A4 & A5 & A6) (B1 & B2 & B3 & B4 & B5 & B6).
  split; [congruence|]. split; [congruence|]. split; [congruence|]. split; [congruence|]. split; [congruence|].
  intros H. rewrite <- (A6 H). apply B6. rewrite (A6 H). exact H.
Qed.
Lemma Forall2_refl' : forall A (R : A -> A -> Prop) l, (forall x, R x x) -> Forall2 R l l.
Proof. induction l; constructor; auto. Qed.
Lemma Forall2_trans' : forall A (R : A -> A -> Prop), (forall x y z, R x y -> R y z -> R x z) -> forall a b c, Forall2 R a b -> Forall2 R b c -> Forall2 R a c.
Proof. intros A R T a b c H. revert c. induction H; intros c K; inversion K; subst; constructor; eauto. Qed.
Lemma same_cdef_refl : forall c, same_cdef c c.
Proof. intros c. split; [repeat split|]. apply Forall2_refl'. intros x. split; [auto|apply same_pdef_refl]. Qed.
Lemma same_cdef_trans : forall a b c, same_cdef a b -> same_cdef b c -> same_cdef a c.
Proof.
  intros a b c [(A1 & A2 & A3 & A4) A5] [(B1 & B2 & B3 & B4) B5]. split; [split; [congruence|split; [congruence|split; congruence]]|].
  eapply Forall2_trans'; eauto. intros x y z [X1 X2] [Y1 Y2]. split; [congruence|eapply same_pdef_trans; eauto].
Qed.
Lemma same_tdef_refl : forall t, same_tdef t t.
Proof. intros t. split; [auto|]. split; [auto|]. destruct (t_kind t); auto. eauto. Qed.
Lemma same_tdef_trans : forall a b c, same_tdef a b -> same_tdef b c -> same_tdef a c.
Proof.
  intros a b c (A1 & A2 & A3) (B1 & B2 & B3). split; [congruence|]. split; [congruence|].
  destruct (t_kind a); try (rewrite A3 in B3; exact B3). destruct A3 as (pid0 & A3). rewrite A3 in B3. exact B3.
Qed.
Lemma only_ids_refl : forall m, only_ids m m.
Proof. intros m. repeat (split; [reflexivity|]). split; [intros h c H; exists c; split; [auto|apply same_cdef_refl]|intros h c H; exists c; split; [auto|apply same_tdef_refl]]. Qed.
Lemma only_ids_trans : forall a b c, only_ids a b -> only_ids b c -> only_ids a c.
Proof.
  intros a b c (A1 & A2 & A3 & A4 & A5 & A6) (B1 & B2 & B3 & B4 & B5 & B6).
  split; [congruence|]. split; [congruence|]. split; [congruence|]. split; [congruence|]. split.
  - intros h x H. apply A5 in H as (y & H & S1). apply B5 in H as (z & H & S2). exists z. split; [auto|eapply same_cdef_trans; eauto].
  - intros h x H. apply A6 in H as (y & H & S1). apply B6 in H as (z & H & S2). exists z. split; [auto|eapply same_tdef_trans; eauto].
Qed.
Lemma only_ids_wf : forall m m', only_ids m m' -> wf m -> wf m'.
Proof.
  intros m m' (A1 & A2 & A3 & A4 & A5 & A6) (W1 & W2 & W3 & W4). unfold wf. rewrite A1, A2, A3, A4. split; [|split; [|split]].
  - intros n h H. apply W1 in H as (c & H). apply A5 in H as (c' & H & _). eauto.
  - intros a h H. apply W2 in H as (c & H & E). apply A5 in H as (c' & H & (_ & S & _) & _). exists c'. split; [auto|congruence].
  - intros n h H. apply W3 in H as (c & H). apply A6 in H as (c' & H & _). eauto.
  - intros a h H. apply W4 in H as (c & H & E). apply A6 in H as (c' & H & _ & S & _). exists c'. split; [auto|congruence].
Qed.

(** ** Dynamic ids *)

(** the keys of a class's properties are their identifiers *)
Definition keys_ok (c : cdef) : Prop := NoDup (map fst (c_props c)) /\ forall x, In x (c_props c) -> p_auid (snd x) = fst x.

Lemma pid_loop_le : forall fuel next used r, pid_loop fuel next used = Ok r -> r <= next.
Proof.
  induction fuel as [|fuel IH]; cbn; intros next used r E; destruct (existsb (Z.eqb next) used); try discriminate; try (injection E as <-; lia).
  destruct (next - 1 <? 32768); [discriminate|]. apply IH in E. lia.
Qed.
Lemma next_free_le : forall st r st', next_free_pid st = Ok (r, st') -> r <= fst st /\ fst st' = r - 1.
Proof.
  intros [next used] r st'. unfold next_free_pid. destruct (pid_loop _ next used) as [x|] eqn:E; [|discriminate]. cbn [bind]. intros H. injection H as <- <-.
  apply pid_loop_le in E. cbn. lia.
Qed.

Definition swap_id (a pid : Z) (x : Z * pdef) : Z * pdef := (fst x, if p_auid (snd x) =? a then with_pid (snd x) pid else snd x).
Lemma zget_swap : forall a pid l k, zget (map (swap_id a pid) l) k = match zget l k with Some p => Some (snd (swap_id a pid (k, p))) | None => None end.
Proof.
  intros a pid l k. unfold zget. induction l as [|[x p] l IH]; cbn; [reflexivity|]. destruct (Z.eqb_spec x k) as [->|]; [reflexivity|exact IH].
Qed.
Lemma set_pid_props : forall c a pid, c_props (set_pid c a pid) = map (swap_id a pid) (c_props c).
Proof. reflexivity. Qed.
Lemma zget_keys : forall c k p, keys_ok c -> zget (c_props c) k = Some p -> p_auid p = k.
Proof. intros c k p [_ K] H. apply zget_In in H. apply K in H. exact H. Qed.
Lemma keys_set_pid : forall c a pid, keys_ok c -> keys_ok (set_pid c a pid).
Proof.
  intros c a pid [N K]. split; rewrite set_pid_props.
  - rewrite map_map. cbn [swap_id fst]. exact N.
  - intros x I. apply in_map_iff in I as (y & <- & I). apply K in I. unfold swap_id. cbn [fst snd]. destruct (p_auid (snd y) =? a); exact I.
Qed.
Lemma set_pid_same : forall c p pid, keys_ok c -> zget (c_props c) (p_auid p) = Some p -> 32768 <= p_pid p -> same_cdef c (set_pid c (p_auid p) pid).
Proof.
  intros c p pid K Hz D. split; [repeat split|]. rewrite set_pid_props. destruct K as [N K].
  assert (G : forall l, incl l (c_props c) -> Forall2 (fun x x' : Z * pdef => fst x' = fst x /\ same_pdef (snd x) (snd x')) l (map (swap_id (p_auid p) pid) l)).
  { induction l as [|x l IH]; intros I; cbn [map]; constructor.
    - unfold swap_id. cbn [fst snd]. split; [auto|]. destruct (Z.eqb_spec (p_auid (snd x)) (p_auid p)) as [Q|]; [|apply same_pdef_refl].
      assert (X : In x (c_props c)) by (apply I; cbn; auto). pose proof (K _ X) as Kx. destruct x as [k q]. cbn [fst snd] in *. apply In_zget in X; auto.
      assert (q = p) as -> by congruence. repeat split; auto. cbn. lia.
    - apply IH. intros y Y. apply I. cbn. auto. }
  apply G. apply incl_refl.
Qed.

(** [clean a k]: property [k] of class [a] has its final id; [orig a k pid]: it had this id at first *)
Definition ids_inv (n0 : Z) (orig : Z -> Z -> Z -> Prop) (clean : Z -> Z -> Prop) (m : meta) : Prop :=
  (forall a c k p a' c' k' p', class_of m a = Some c -> zget (c_props c) k = Some p -> class_of m a' = Some c' -> zget (c_props c') k' = Some p' ->
     clean a k -> clean a' k' -> 32768 <= p_pid p -> p_pid p' = p_pid p -> a = a' /\ k = k') /\
  (forall a c k p, class_of m a = Some c -> zget (c_props c) k = Some p -> 32768 <= p_pid p -> In (p_pid p) (snd (m_pids m)) \/ (n0 < p_pid p /\ orig a k (p_pid p))) /\
  (forall a c k p, class_of m a = Some c -> zget (c_props c) k = Some p -> 32768 <= p_pid p -> clean a k \/ (n0 < p_pid p /\ orig a k (p_pid p))) /\
  fst (m_pids m) <= n0.
Definition found_ok (m : meta) : Prop := wf m /\ forall a c, class_of m a = Some c -> keys_ok c.

(** what changing the class object at [h] does to lookups *)
Lemma class_of_upd : forall m a h c c' st x, wf m -> zget (m_cauid m) a = Some h -> nth_error (m_heap m) h = Some c ->
  class_of (with_pids (with_class m h c') st) x = if a =? x then Some c' else class_of m x.
Proof.
  intros m a h c c' st x (_ & W & _) Hz N. unfold class_of. cbn [with_pids with_class m_cauid m_heap]. destruct (Z.eqb_spec a x) as [<-|Q].
  - rewrite Hz. eapply upd_same; eauto.
  - destruct (zget (m_cauid m) x) as [k|] eqn:E; [|reflexivity]. apply upd_other. intros ->. apply W in E as (d & E & <-). apply W in Hz as (d' & Hz & <-). congruence.
Qed.

Lemma renew_inv : forall n0 (orig : Z -> Z -> Z -> Prop) clean m a h c p m' r,
  (forall a k a' k' pid, orig a k pid -> orig a' k' pid -> a = a' /\ k = k') ->
  ids_inv n0 orig clean m -> found_ok m -> zget (m_cauid m) a = Some h -> nth_error (m_heap m) h = Some c -> zget (c_props c) (p_auid p) = Some p ->
  renew m h p = Ok (m', r) ->
  ids_inv n0 orig (fun x y => clean x y \/ (x = a /\ y = p_auid p)) m' /\ found_ok m' /\ only_ids m m' /\
  m_cset m' = m_cset m /\ m_tset m' = m_tset m /\ m_theap m' = m_theap m /\
  (exists c', nth_error (m_heap m') h = Some c' /\ forall k, k <> p_auid p -> zget (c_props c') k = zget (c_props c) k) /\
  (forall x, x <> a -> class_of m' x = class_of m x).
Proof.
  intros n0 orig clean m a h c p m' r O (I1 & I2 & I3 & I4) (W & F) Hz N Zp E.
  assert (Ca : class_of m a = Some c) by (unfold class_of; rewrite Hz; exact N).
  unfold renew in E. destruct ((32768 <=? p_pid p) && existsb (Z.eqb (p_pid p)) (snd (m_pids m))) eqn:B.
  - apply andb_prop in B as [B1 B2]. apply Z.leb_le in B1. destruct (next_free_pid (m_pids m)) as [[f st]|] eqn:NF; [|discriminate]. cbn [bind fst snd] in E. rewrite N in E. injection E as <- <-.
    destruct (next_free_fresh _ _ _ NF) as [NF1 NF2]. destruct (next_free_le _ _ _ NF) as [NF3 NF4].
    pose proof (fun c' st x => class_of_upd m a h c c' st x W Hz N) as U.
    set (c' := set_pid c (p_auid p) f) in *.
    assert (Zn : forall k q, zget (c_props c') k = Some q -> (k = p_auid p /\ p_pid q = f) \/ (k <> p_auid p /\ zget (c_props c) k = Some q)).
    { intros k q. unfold c'. rewrite set_pid_props, zget_swap. destruct (zget (c_props c) k) as [y|] eqn:Y; [|discriminate]. intros Q. injection Q as <-. cbn [swap_id snd].
      pose proof (zget_keys _ _ _ (F _ _ Ca) Y) as KY. rewrite KY. destruct (Z.eqb_spec k (p_auid p)) as [->|]; [left; split; reflexivity|right; auto]. }
    assert (OI : only_ids m (with_pids (with_class m h c') st)).
    { repeat (split; [reflexivity|]). split; [|intros h0 t H; exists t; split; [exact H|apply same_tdef_refl]].
      intros h0 x H. cbn [with_pids with_class m_heap]. destruct (Nat.eq_dec h0 h) as [->|D].
      - exists c'. split; [eapply upd_same; eauto|]. assert (x = c) as -> by congruence. apply set_pid_same; eauto.
      - exists x. split; [rewrite upd_other; auto|apply same_cdef_refl]. }
    split; [|split; [|split; [exact OI|split; [reflexivity|split; [reflexivity|split; [reflexivity|split]]]]]].
    + split; [|split; [|split]].
      * (* new *)
        assert (New : forall a0 c0 k0 p0, class_of (with_pids (with_class m h c') st) a0 = Some c0 -> zget (c_props c0) k0 = Some p0 ->
          (a0 = a /\ k0 = p_auid p /\ p_pid p0 = f) \/ (~ (a0 = a /\ k0 = p_auid p) /\ exists c1, class_of m a0 = Some c1 /\ zget (c_props c1) k0 = Some p0)).
        { intros a0 c0 k0 p0. rewrite U. destruct (Z.eqb_spec a a0) as [<-|D]; intros X Y; [injection X as <-; apply Zn in Y as [[Y1 Y2]|[Y1 Y2]]; [auto|right; split; [tauto|eauto]]|].
          right. split; [intros [-> _]; tauto|eauto]. }
        intros a1 c1 k1 p1 a2 c2 k2 p2 X1 Y1 X2 Y2 K1 K2 D Q.
        destruct (New _ _ _ _ X1 Y1) as [(A1 & B1' & E1)|(A1 & d1 & E1 & G1)]; destruct (New _ _ _ _ X2 Y2) as [(A2 & B2' & E2)|(A2 & d2 & E2 & G2)].
        -- split; congruence.
        -- exfalso. assert (D2 : 32768 <= p_pid p2) by lia. destruct (I2 _ _ _ _ E2 G2 D2) as [L|[L _]]; [|lia]. apply NF1. rewrite <- E1, <- Q. exact L.
        -- exfalso. destruct (I2 _ _ _ _ E1 G1 D) as [L|[L _]]; [|lia]. apply NF1. rewrite <- E2, Q. exact L.
        -- eapply I1; eauto; [destruct K1 as [?|[? ?]]; [auto|tauto]|destruct K2 as [?|[? ?]]; [auto|tauto]].
      * intros a0 c0 k0 p0. rewrite U. cbn [with_pids m_pids]. rewrite NF2. destruct (Z.eqb_spec a a0) as [<-|D]; intros X Y Dy.
        -- injection X as <-. apply Zn in Y as [[Y1 Y2]|[Y1 Y2]]; [left; rewrite Y2; cbn; auto|]. destruct (I2 _ _ _ _ Ca Y2 Dy); [left; cbn; auto|auto].
        -- destruct (I2 _ _ _ _ X Y Dy); [left; cbn; auto|auto].
      * intros a0 c0 k0 p0. rewrite U. destruct (Z.eqb_spec a a0) as [<-|D]; intros X Y Dy.
        -- injection X as <-. apply Zn in Y as [[Y1 Y2]|[Y1 Y2]]; [left; auto|]. destruct (I3 _ _ _ _ Ca Y2 Dy); auto.
        -- destruct (I3 _ _ _ _ X Y Dy); auto.
      * cbn [with_pids m_pids]. lia.
    + split; [eapply only_ids_wf; eauto|]. intros a0 c0. rewrite U. destruct (Z.eqb_spec a a0) as [<-|D]; intros X; [injection X as <-; apply keys_set_pid; eauto|eauto].
    + exists c'. split; [cbn [with_pids with_class m_heap]; eapply upd_same; eauto|]. intros k Nk. unfold c'. rewrite set_pid_props, zget_swap. destruct (zget (c_props c) k) as [y|] eqn:Y; [|reflexivity].
      cbn [swap_id snd]. rewrite (zget_keys _ _ _ (F _ _ Ca) Y). destruct (Z.eqb_spec k (p_auid p)); [tauto|reflexivity].
    + intros x D. rewrite U. destruct (Z.eqb_spec a x); [congruence|reflexivity].
  - injection E as <- <-. split; [|split; [split; auto|split; [apply only_ids_refl|split; [reflexivity|split; [reflexivity|split; [reflexivity|split; [exists c; split; [auto|auto]|auto]]]]]]].
    assert (NotIn : 32768 <= p_pid p -> n0 < p_pid p /\ orig a (p_auid p) (p_pid p)).
    { intros D. destruct (I2 _ _ _ _ Ca Zp D) as [L|L]; [|exact L]. exfalso. rewrite (proj2 (Z.leb_le _ _) D) in B. cbn [andb] in B.
      assert (existsb (Z.eqb (p_pid p)) (snd (m_pids m)) = true) by (apply existsb_exists; exists (p_pid p); split; [exact L|apply Z.eqb_refl]). congruence. }
    assert (NL : 32768 <= p_pid p -> ~ In (p_pid p) (snd (m_pids m))).
    { intros D L. rewrite (proj2 (Z.leb_le _ _) D) in B. cbn [andb] in B.
      assert (existsb (Z.eqb (p_pid p)) (snd (m_pids m)) = true) by (apply existsb_exists; exists (p_pid p); split; [exact L|apply Z.eqb_refl]). congruence. }
    split; [|split; [exact I2|split; [|exact I4]]].
    + intros a1 c1 k1 p1 a2 c2 k2 p2 X1 Y1 X2 Y2 K1 K2 D Q.
      assert (S : forall a0 c0 k0 p0, class_of m a0 = Some c0 -> zget (c_props c0) k0 = Some p0 -> p_pid p0 = p_pid p -> 32768 <= p_pid p -> a0 = a /\ k0 = p_auid p).
      { intros a0 c0 k0 p0 X Y Q0 D0. assert (D1 : 32768 <= p_pid p0) by lia. destruct (I2 _ _ _ _ X Y D1) as [L|[_ L]]; [exfalso; apply (NL D0); rewrite <- Q0; exact L|].
        rewrite Q0 in L. destruct (NotIn D0) as [_ L2]. exact (O _ _ _ _ _ L L2). }
      destruct K1 as [K1|[-> ->]]; destruct K2 as [K2|[-> ->]].
      * eapply I1; eauto.
      * assert (c2 = c) as -> by congruence. assert (p2 = p) as -> by congruence. eapply S; eauto; lia.
      * assert (c1 = c) as -> by congruence. assert (p1 = p) as -> by congruence. destruct (S _ _ _ _ X2 Y2 Q D) as [-> ->]. auto.
      * auto.
    + intros a0 c0 k0 p0 X Y D. destruct (I3 _ _ _ _ X Y D); auto.
Qed.

(** ** The loops *)

(** nothing but type objects differs *)
Definition types_only (m m' : meta) : Prop :=
  m_heap m' = m_heap m /\ m_cset m' = m_cset m /\ m_tset m' = m_tset m /\ m_pids m' = m_pids m /\ only_ids m m'.
Lemma move_entry_types : forall m h old new m', move_entry m h old new = Ok m' -> types_only m m'.
Proof.
  intros m h old new m' E. unfold move_entry in E. destruct (nth_error (m_theap m) h) as [t|] eqn:N; [|discriminate].
  destruct (t_kind t) as [| | | | | | | | | | |size pid| | | |] eqn:K; try discriminate. destruct (pid =? old); [|discriminate]. injection E as <-.
  repeat (split; [reflexivity|]). split; [intros k c H; exists c; split; [exact H|apply same_cdef_refl]|].
  intros k x H. cbn [with_type m_theap]. destruct (Nat.eq_dec k h) as [->|D].
  - eexists. split; [eapply upd_same; eauto|]. assert (x = t) as -> by congruence. split; [reflexivity|]. split; [reflexivity|]. rewrite K. eexists. reflexivity.
  - exists x. split; [rewrite upd_other; auto|apply same_tdef_refl].
Qed.
Lemma types_only_class : forall m m' a, types_only m m' -> class_of m' a = class_of m a.
Proof. intros m m' a (A1 & _ & _ & _ & _ & A2 & _). unfold class_of. rewrite A1, A2. reflexivity. Qed.
Lemma ids_inv_eq : forall n0 orig c1 c2 m m', (forall a, class_of m' a = class_of m a) -> m_pids m' = m_pids m -> (forall x y, c1 x y <-> c2 x y) ->
  ids_inv n0 orig c1 m -> ids_inv n0 orig c2 m'.
Proof.
  intros n0 orig c1 c2 m m' E P C (I1 & I2 & I3 & I4). split; [|split; [|split]].
  - intros a c k p a' c' k' p'. rewrite !E. intros H1 H2 H3 H4 H5 H6. apply C in H5. apply C in H6. eauto.
  - intros a c k p. rewrite E, P. apply I2.
  - intros a c k p. rewrite E. intros H1 H2 H3. rewrite <- C. eauto.
  - rewrite P. exact I4.
Qed.

(** a step of a loop over the properties of the class object at [h] *)
Definition renews (h : nat) (f : meta -> pdef -> result meta) : Prop :=
  forall m p m', f m p = Ok m' -> exists m1 r, renew m h p = Ok (m1, r) /\ types_only m1 m' /\ (r = None -> m' = m1).
Lemma types_only_refl : forall m, types_only m m.
Proof. intros m. repeat (split; [reflexivity|]). apply only_ids_refl. Qed.
Lemma renews_type : forall hc ht, renews hc (renew_for_type hc ht).
Proof.
  intros hc ht m p m' E. unfold renew_for_type in E. destruct (renew m hc p) as [[m1 r]|]; [|discriminate]. cbn [bind fst snd] in E. exists m1, r. split; [reflexivity|].
  destruct r as [new|]; [split; [eapply move_entry_types; eauto|discriminate]|]. injection E as <-. split; [apply types_only_refl|auto].
Qed.
Lemma renews_class : forall hc, renews hc (renew_for_class hc).
Proof.
  intros hc m p m' E. unfold renew_for_class in E. destruct (renew m hc p) as [[m1 r]|]; [|discriminate]. cbn [bind fst snd] in E. injection E as <-. exists m1, r.
  split; [reflexivity|]. split; [apply types_only_refl|auto].
Qed.
Lemma renew_static : forall m h p m' r, p_pid p < 32768 -> renew m h p = Ok (m', r) -> m' = m /\ r = None.
Proof. intros m h p m' r S. unfold renew. destruct (Z.leb_spec 32768 (p_pid p)); [lia|]. cbn [andb]. intros E. injection E as <- <-. auto. Qed.
Lemma each_static : forall h f l m m', renews h f -> (forall p, In p l -> p_pid p < 32768) -> each f l m = Ok m' -> m' = m.
Proof.
  intros h f l m m' R. revert m. induction l as [|p l IH]; intros m S E; cbn [each] in E; [congruence|].
  destruct (f m p) as [m1|] eqn:E1; [|discriminate]. cbn [bind] in E. apply R in E1 as (m2 & r & E2 & _ & E3). apply renew_static in E2 as [-> ->]; [|apply S; cbn; auto].
  rewrite (E3 eq_refl) in E. apply IH in E; [auto|]. intros q I. apply S. cbn. auto.
Qed.

Lemma each_renew : forall n0 (orig : Z -> Z -> Z -> Prop) h f a, renews h f ->
  (forall a k a' k' pid, orig a k pid -> orig a' k' pid -> a = a' /\ k = k') ->
  forall l m m' clean c, ids_inv n0 orig clean m -> found_ok m -> zget (m_cauid m) a = Some h -> nth_error (m_heap m) h = Some c ->
  NoDup (map p_auid l) -> (forall p, In p l -> zget (c_props c) (p_auid p) = Some p) -> each f l m = Ok m' ->
  ids_inv n0 orig (fun x y => clean x y \/ (x = a /\ In y (map p_auid l))) m' /\ found_ok m' /\ only_ids m m' /\ m_cset m' = m_cset m /\ m_tset m' = m_tset m /\
  (forall x, x <> a -> class_of m' x = class_of m x).
Proof.
  intros n0 orig h f a R O. induction l as [|p l IH]; intros m m' clean c I F Hz N D P E; cbn [each] in E.
  - injection E as <-. split; [eapply ids_inv_eq; [| | |exact I]; auto; cbn; intros; tauto|]. split; [auto|]. split; [apply only_ids_refl|]. auto.
  - destruct (f m p) as [m1|] eqn:E1; [|discriminate]. cbn [bind] in E. apply R in E1 as (m2 & r & E2 & T & _).
    destruct (renew_inv n0 orig clean m a h c p m2 r O I F Hz N (P p (or_introl eq_refl)) E2) as (J1 & J2 & J3 & J4 & J5 & J6 & (c' & J7 & J8) & J9).
    pose proof T as (T1 & T2 & T3 & T4 & T5). inversion D as [|? ? D1 D2]; subst.
    assert (F1 : found_ok m1). { split; [eapply only_ids_wf; [exact T5|apply J2]|]. intros x y X. rewrite (types_only_class _ _ _ T) in X. eapply J2; eauto. }
    assert (Z1 : zget (m_cauid m1) a = Some h). { destruct T5 as (_ & -> & _). destruct J3 as (_ & -> & _). exact Hz. }
    assert (N1 : nth_error (m_heap m1) h = Some c') by (rewrite T1; exact J7).
    assert (I1 : ids_inv n0 orig (fun x y => clean x y \/ (x = a /\ y = p_auid p)) m1) by (eapply ids_inv_eq; [intros x; apply (types_only_class _ _ x T)|exact T4| |exact J1]; intros; tauto).
    destruct (IH m1 m' _ c' I1 F1 Z1 N1 D2) as (K1 & K2 & K3 & K4 & K5 & K6).
    { intros q Iq. rewrite J8; [apply P; cbn; auto|]. intros Q. apply D1. rewrite <- Q. apply in_map. exact Iq. }
    { exact E. }
    split; [eapply ids_inv_eq; [| | |exact K1]; auto; cbn [map In]; intros; intuition|]. split; [auto|].
    split; [eapply only_ids_trans; [exact J3|]; eapply only_ids_trans; [exact T5|exact K3]|]. split; [congruence|]. split; [congruence|].
    intros x X. rewrite K6, (types_only_class _ _ x T), J9; auto.
Qed.
Lemma keys_props : forall c, keys_ok c -> NoDup (map p_auid (props c)) /\ forall p, In p (props c) -> zget (c_props c) (p_auid p) = Some p.
Proof.
  intros c [N K]. unfold props. split.
  - rewrite map_map. replace (map (fun x => p_auid (snd x)) (c_props c)) with (map fst (c_props c)); auto. apply map_ext_in. intros x I. symmetry. auto.
  - intros p I. apply in_map_iff in I as ([k q] & <- & I). pose proof (K _ I) as E. cbn [fst snd] in *. rewrite E. apply In_zget; auto.
Qed.

(** the invariant of both loops: the properties of stored classes have their final ids *)
Definition merge_inv (n0 : Z) (orig : Z -> Z -> Z -> Prop) (m : meta) : Prop :=
  found_ok m /\ exists clean, ids_inv n0 orig clean m /\
  forall a c k p, class_of m a = Some c -> zget (c_props c) k = Some p -> In a (m_cset m) -> 32768 <= p_pid p -> clean a k.

Lemma add_key_In : forall l k x, In x (add_key l k) <-> In x l \/ x = k.
Proof.
  intros l k x. unfold add_key. destruct (existsb (Z.eqb k) l) eqn:E; [|rewrite in_app_iff; cbn; intuition].
  apply existsb_exists in E as (y & I & Q). apply Z.eqb_eq in Q as <-. split; [auto|intros [?| ->]; auto].
Qed.

Lemma each_class_inv : forall n0 (orig : Z -> Z -> Z -> Prop) h f a c m m', renews h f ->
  (forall a k a' k' pid, orig a k pid -> orig a' k' pid -> a = a' /\ k = k') ->
  merge_inv n0 orig m -> zget (m_cauid m) a = Some h -> nth_error (m_heap m) h = Some c -> each f (props c) m = Ok m' ->
  merge_inv n0 orig (store_class m' a) /\ only_ids m m' /\ m_cset m' = m_cset m /\ m_tset m' = m_tset m /\
  (forall x, x <> a -> class_of m' x = class_of m x) /\ ((forall p, In p (props c) -> p_pid p < 32768) -> m' = m).
Proof.
  intros n0 orig h f a c m m' R O (F & clean & I & C) Hz N E.
  assert (Ca : class_of m a = Some c) by (unfold class_of; rewrite Hz; exact N).
  destruct (keys_props c (proj2 F _ _ Ca)) as [D P].
  destruct (each_renew n0 orig h f a R O (props c) m m' clean c I F Hz N D P E) as (K1 & K2 & K3 & K4 & K5 & K6).
  split; [|split; [exact K3|split; [exact K4|split; [exact K5|split; [exact K6|intros S; eapply each_static; eauto]]]]].
  split; [exact K2|]. exists (fun x y => clean x y \/ (x = a /\ In y (map p_auid (props c)))). split; [exact K1|].
  intros x d k p X Y Z1 Dy. change (class_of (store_class m' a) x) with (class_of m' x) in X. cbn [store_class m_cset] in Z1. apply add_key_In in Z1.
  destruct (Z.eq_dec x a) as [->|NE].
  - right. split; [reflexivity|]. assert (Hs : same_cdef c d).
    { destruct K3 as (_ & Q & _ & _ & Q2 & _). destruct (Q2 _ _ N) as (d' & N' & S). unfold class_of in X. rewrite Q, Hz, N' in X. injection X as <-. exact S. }
    destruct Hs as [_ Hs]. assert (G : map fst (c_props d) = map fst (c_props c)). { clear - Hs. induction Hs as [|u v l l' [U _] H IH]; cbn; congruence. }
    destruct (proj2 F _ _ Ca) as [_ Kc]. replace (map p_auid (props c)) with (map fst (c_props c)).
    + rewrite <- G. apply zget_In in Y. apply (in_map fst) in Y. exact Y.
    + unfold props. rewrite map_map. apply map_ext_in. intros u Iu. symmetry. apply Kc. exact Iu.
  - left. rewrite (K6 x NE) in X. destruct Z1 as [Z1|Z1]; [|congruence]. rewrite K4 in Z1. eapply C; eauto.
Qed.

(** ** A whole merge *)
(** adding the type [x] leaves the ids of class [a] alone *)
Definition safe (m : meta) (x : Z * nat) (a : Z) : Prop :=
  existsb (Z.eqb (fst x)) ROOT_TYPES = false -> ~ In (fst x) (m_tset m) -> forall t c, nth_error (m_theap m) (snd x) = Some t ->
  fst (kind_class (t_kind t)) = a -> class_of m a = Some c -> forall p, In p (props c) -> p_pid p < 32768.

Lemma add_type_inv : forall n0 (orig : Z -> Z -> Z -> Prop) m x m',
  (forall a k a' k' pid, orig a k pid -> orig a' k' pid -> a = a' /\ k = k') ->
  merge_inv n0 orig m -> add_type m x = Ok m' ->
  merge_inv n0 orig m' /\ only_ids m m' /\ incl (m_cset m) (m_cset m') /\ incl (m_tset m) (m_tset m') /\ (existsb (Z.eqb (fst x)) ROOT_TYPES = false -> In (fst x) (m_tset m')) /\
  (forall a, In a (m_cset m') -> In a (m_cset m) \/ (zget (m_cauid m) a <> None /\ a <> ROOT_CLASS)) /\ (forall a, In a (m_tset m') -> In a (m_tset m) \/ (a = fst x /\ existsb (Z.eqb a) ROOT_TYPES = false)) /\
  (forall a, safe m x a -> class_of m' a = class_of m a).
Proof.
  intros n0 orig m x m' O I E. unfold add_type in E.
  destruct (existsb (Z.eqb (fst x)) ROOT_TYPES || existsb (Z.eqb (fst x)) (m_tset m)) eqn:B.
  - injection E as <-. split; [exact I|]. split; [apply only_ids_refl|]. split; [apply incl_refl|]. split; [apply incl_refl|]. split; [|auto].
    intros R. rewrite R in B. cbn [orb] in B. apply existsb_exists in B as (y & J & Q). apply Z.eqb_eq in Q as ->. exact J.
  - apply orb_false_elim in B as [B1 B2]. destruct (nth_error (m_theap m) (snd x)) as [t|] eqn:T; [|discriminate].
    destruct (zget (m_cauid m) (fst (kind_class (t_kind t)))) as [hc|] eqn:Z1; [|discriminate]. destruct (nth_error (m_heap m) hc) as [c|] eqn:N; [|discriminate].
    destruct (each (renew_for_type hc (snd x)) (props c) m) as [m1|] eqn:E1; [|discriminate]. cbn [bind] in E. injection E as <-.
    assert (Ca : c_auid c = fst (kind_class (t_kind t))) by (destruct I as ((W & _) & _); destruct W as (_ & W & _); apply W in Z1 as (d & Z2 & Z3); congruence).
    rewrite Ca. destruct (each_class_inv n0 orig hc _ _ c m m1 (renews_type hc (snd x)) O I Z1 N E1) as (K1 & K2 & K3 & K4 & K5 & K6).
    split; [exact K1|]. split; [exact K2|]. cbn [store_class store_type m_cset m_tset]. rewrite K3, K4.
    split; [intros a J; apply add_key_In; auto|]. split; [intros a J; apply add_key_In; auto|]. split; [intros _; apply add_key_In; auto|].
    split; [intros a J; apply add_key_In in J as [J| ->]; [auto|right; split; [congruence|destruct (t_kind t); discriminate]]|]. split; [intros a J; apply add_key_In in J as [J| ->]; auto|].
    intros a Sf. change (class_of m1 a = class_of m a).
    destruct (Z.eq_dec a (fst (kind_class (t_kind t)))) as [->|NE]; [|auto]. rewrite K6; [reflexivity|].
    intros p Ip. eapply Sf; eauto.
    + intros J2. assert (existsb (Z.eqb (fst x)) (m_tset m) = true) by (apply existsb_exists; exists (fst x); split; [exact J2|apply Z.eqb_refl]). congruence.
    + unfold class_of. rewrite Z1. exact N.
Qed.
Lemma add_class_inv : forall n0 (orig : Z -> Z -> Z -> Prop) m x m',
  (forall a k a' k' pid, orig a k pid -> orig a' k' pid -> a = a' /\ k = k') ->
  merge_inv n0 orig m -> zget (m_cauid m) (fst x) = Some (snd x) -> add_class m x = Ok m' ->
  merge_inv n0 orig m' /\ only_ids m m' /\ incl (m_cset m) (m_cset m') /\ m_tset m' = m_tset m /\ (fst x <> ROOT_CLASS -> In (fst x) (m_cset m')) /\
  (forall a, In a (m_cset m') -> In a (m_cset m) \/ (a = fst x /\ a <> ROOT_CLASS)) /\ (forall a, In a (m_cset m) -> class_of m' a = class_of m a).
Proof.
  intros n0 orig m x m' O I Hz E. unfold add_class in E. destruct ((fst x =? ROOT_CLASS) || existsb (Z.eqb (fst x)) (m_cset m)) eqn:B.
  - injection E as <-. split; [exact I|]. split; [apply only_ids_refl|]. split; [apply incl_refl|]. split; [reflexivity|]. split; [|auto].
    intros R. apply Z.eqb_neq in R. rewrite R in B. cbn [orb] in B. apply existsb_exists in B as (y & J & Q). apply Z.eqb_eq in Q as ->. exact J.
  - apply orb_false_elim in B as [B1 B2]. apply Z.eqb_neq in B1. destruct (nth_error (m_heap m) (snd x)) as [c|] eqn:N; [|discriminate].
    destruct (each (renew_for_class (snd x)) (props c) m) as [m1|] eqn:E1; [|discriminate]. cbn [bind] in E. injection E as <-.
    destruct (each_class_inv n0 orig (snd x) _ (fst x) c m m1 (renews_class (snd x)) O I Hz N E1) as (K1 & K2 & K3 & K4 & K5 & K6).
    split; [exact K1|]. split; [exact K2|]. cbn [store_class m_cset m_tset]. rewrite K3, K4.
    split; [intros a J; apply add_key_In; auto|]. split; [reflexivity|]. split; [intros _; apply add_key_In; auto|].
    split; [intros a J; apply add_key_In in J as [J| ->]; auto|].
    intros a J. change (class_of m1 a = class_of m a). apply K5. intros ->.
    assert (existsb (Z.eqb (fst x)) (m_cset m) = true) by (apply existsb_exists; exists (fst x); split; [exact J|apply Z.eqb_refl]). congruence.
Qed.

Lemma kind_class_same : forall t t', same_tdef t t' -> fst (kind_class (t_kind t')) = fst (kind_class (t_kind t)).
Proof. intros t t' (_ & _ & S). destruct (t_kind t); try (rewrite S; reflexivity). destruct S as (i & S). rewrite S. reflexivity. Qed.

Lemma each_types : forall n0 (orig : Z -> Z -> Z -> Prop),
  (forall a k a' k' pid, orig a k pid -> orig a' k' pid -> a = a' /\ k = k') ->
  forall l m m', merge_inv n0 orig m -> each add_type l m = Ok m' ->
  merge_inv n0 orig m' /\ only_ids m m' /\ incl (m_cset m) (m_cset m') /\ incl (m_tset m) (m_tset m') /\
  (forall x, In x l -> existsb (Z.eqb (fst x)) ROOT_TYPES = false -> In (fst x) (m_tset m')) /\
  (forall a, In a (m_cset m') -> In a (m_cset m) \/ (zget (m_cauid m) a <> None /\ a <> ROOT_CLASS)) /\ (forall a, In a (m_tset m') -> In a (m_tset m) \/ (In a (map fst l) /\ existsb (Z.eqb a) ROOT_TYPES = false)) /\
  (forall a, (forall x, In x l -> safe m x a) -> class_of m' a = class_of m a).
Proof.
  intros n0 orig O. induction l as [|x l IH]; intros m m' I E; cbn [each] in E.
  - injection E as <-. split; [auto|]. split; [apply only_ids_refl|]. split; [apply incl_refl|]. split; [apply incl_refl|]. split; [intros x []|]. auto.
  - destruct (add_type m x) as [m1|] eqn:E1; [|discriminate]. cbn [bind] in E.
    destruct (add_type_inv n0 orig m x m1 O I E1) as (J1 & J2 & J3 & J4 & J5 & J6 & J7 & J8).
    destruct (IH m1 m' J1 E) as (K1 & K2 & K3 & K4 & K5 & K6 & K7 & K8).
    split; [auto|]. split; [eapply only_ids_trans; eauto|]. split; [eapply incl_tran; eauto|]. split; [eapply incl_tran; eauto|].
    split; [intros y [<-|Iy] R; [apply K4; auto|auto]|].
    split; [intros a H; apply K6 in H as [H|H]; [auto|right; destruct J2 as (_ & J2 & _); rewrite <- J2; exact H]|].
    split; [intros a H; apply K7 in H as [H|[H H2]]; [apply J7 in H as [H|[-> H]]; [auto|right; cbn; auto]|right; cbn; auto]|].
    intros a Sf. assert (Q : class_of m1 a = class_of m a) by (apply J8; apply Sf; cbn; auto). rewrite <- Q. apply K8. intros y Iy R N t c Ht Hk Hc. rewrite Q in Hc.
    destruct (nth_error (m_theap m) (snd y)) as [t0|] eqn:T0.
    + destruct J2 as (_ & _ & _ & _ & _ & J2). destruct (J2 _ _ T0) as (t1 & T1 & S). assert (t1 = t) as -> by congruence. rewrite (kind_class_same _ _ S) in Hk.
      intros p Ip. apply (Sf y (or_intror Iy) R (fun H => N (J4 _ H)) t0 c T0 Hk Hc p Ip).
    + exfalso. destruct J2 as (_ & _ & _ & _ & _ & J2). unfold add_type in E1. clear - E1 Ht T0. 
      assert (L : List.length (m_theap m1) = List.length (m_theap m)).
      { destruct (existsb _ ROOT_TYPES || _); [injection E1 as <-; reflexivity|]. destruct (nth_error (m_theap m) (snd x)); [|discriminate]. destruct (zget _ _) as [hc|]; [|discriminate].
        destruct (nth_error (m_heap m) hc) as [c0|]; [|discriminate]. destruct (each _ _ _) as [m2|] eqn:E2; [|discriminate]. injection E1 as <-. cbn [store_class store_type m_theap].
        clear - E2. revert m E2. induction (props c0) as [|p l IH]; intros m E; cbn [each] in E; [injection E as <-; reflexivity|].
        destruct (renew_for_type hc (snd x) m p) as [m1|] eqn:E1; [|discriminate]. cbn [bind] in E. rewrite (IH _ E). unfold renew_for_type, renew in E1.
        destruct ((32768 <=? p_pid p) && _); [|injection E1 as <-; reflexivity]. destruct (next_free_pid _); [|discriminate]. cbn [bind] in E1. destruct (nth_error _ hc); [|discriminate]. cbn [bind fst snd] in E1.
        unfold move_entry in E1. cbn [with_pids with_class m_theap] in E1. destruct (nth_error (m_theap m) (snd x)) as [t|]; [|discriminate]. destruct (t_kind t); try discriminate. destruct (_ =? _); [|discriminate]. injection E1 as <-.
        cbn [with_type m_theap]. apply upd_len. }
      apply nth_error_None in T0. assert (H : nth_error (m_theap m1) (snd y) <> None) by congruence. apply nth_error_Some in H. lia.
Qed.
Lemma each_classes : forall n0 (orig : Z -> Z -> Z -> Prop),
  (forall a k a' k' pid, orig a k pid -> orig a' k' pid -> a = a' /\ k = k') ->
  forall l m m', merge_inv n0 orig m -> (forall x, In x l -> zget (m_cauid m) (fst x) = Some (snd x)) -> each add_class l m = Ok m' ->
  merge_inv n0 orig m' /\ only_ids m m' /\ incl (m_cset m) (m_cset m') /\ m_tset m' = m_tset m /\
  (forall x, In x l -> fst x <> ROOT_CLASS -> In (fst x) (m_cset m')) /\
  (forall a, In a (m_cset m') -> In a (m_cset m) \/ (In a (map fst l) /\ a <> ROOT_CLASS)) /\ (forall a, In a (m_cset m) -> class_of m' a = class_of m a).
Proof.
  intros n0 orig O. induction l as [|x l IH]; intros m m' I L E; cbn [each] in E.
  - injection E as <-. split; [auto|]. split; [apply only_ids_refl|]. split; [apply incl_refl|]. split; [reflexivity|]. split; [intros x []|]. auto.
  - destruct (add_class m x) as [m1|] eqn:E1; [|discriminate]. cbn [bind] in E.
    destruct (add_class_inv n0 orig m x m1 O I (L x (or_introl eq_refl)) E1) as (J1 & J2 & J3 & J4 & J5 & J6 & J7).
    destruct (IH m1 m' J1) as (K1 & K2 & K3 & K4 & K5 & K6 & K7).
    { intros y Iy. destruct J2 as (_ & -> & _). apply L. cbn. auto. }
    { exact E. }
    split; [auto|]. split; [eapply only_ids_trans; eauto|]. split; [eapply incl_tran; eauto|]. split; [congruence|].
    split; [intros y [<-|Iy] R; [apply K3; auto|auto]|].
    split; [intros a H; apply K6 in H as [H|[H H2]]; [apply J6 in H as [H|[-> H]]; [auto|right; cbn; auto]|right; cbn; auto]|].
    intros a H. rewrite K7 by auto. auto.
Qed.

(** ** Types *)
Lemma each_theap : forall hc ht l m m', each (renew_for_type hc ht) l m = Ok m' -> forall h, h <> ht -> nth_error (m_theap m') h = nth_error (m_theap m) h.
Proof.
  intros hc ht. induction l as [|p l IH]; intros m m' E h D; cbn [each] in E; [injection E as <-; reflexivity|].
  destruct (renew_for_type hc ht m p) as [m1|] eqn:E1; [|discriminate]. cbn [bind] in E. rewrite (IH _ _ E h D). unfold renew_for_type, renew in E1.
  destruct ((32768 <=? p_pid p) && _); [|injection E1 as <-; reflexivity]. destruct (next_free_pid _); [|discriminate]. cbn [bind] in E1. destruct (nth_error _ hc); [|discriminate]. cbn [bind fst snd] in E1.
  unfold move_entry in E1. cbn [with_pids with_class m_theap] in E1. destruct (nth_error (m_theap m) ht) as [t|]; [|discriminate]. destruct (t_kind t); try discriminate. destruct (_ =? _); [|discriminate]. injection E1 as <-.
  cbn [with_type m_theap]. apply upd_other. exact D.
Qed.
(** types that are stored do not change *)
Lemma each_types_stored : forall n0 (orig : Z -> Z -> Z -> Prop),
  (forall a k a' k' pid, orig a k pid -> orig a' k' pid -> a = a' /\ k = k') ->
  forall l m m', merge_inv n0 orig m -> (forall x, In x l -> zget (m_tauid m) (fst x) = Some (snd x)) -> each add_type l m = Ok m' ->
  forall a h, In a (m_tset m) -> zget (m_tauid m) a = Some h -> nth_error (m_theap m') h = nth_error (m_theap m) h.
Proof.
  intros n0 orig O. induction l as [|x l IH]; intros m m' I L E a h J Hz; cbn [each] in E; [injection E as <-; reflexivity|].
  destruct (add_type m x) as [m1|] eqn:E1; [|discriminate]. cbn [bind] in E.
  destruct (add_type_inv n0 orig m x m1 O I E1) as (J1 & J2 & _ & J4 & _).
  assert (Q : m_tauid m1 = m_tauid m) by (destruct J2 as (_ & _ & _ & J2 & _); exact J2).
  rewrite (IH m1 m' J1 (fun y Iy => eq_trans (f_equal (fun d => zget d (fst y)) Q) (L y (or_intror Iy))) E a h (J4 _ J)) by (rewrite Q; exact Hz).
  unfold add_type in E1. destruct (existsb (Z.eqb (fst x)) ROOT_TYPES || existsb (Z.eqb (fst x)) (m_tset m)) eqn:B; [injection E1 as <-; reflexivity|].
  destruct (nth_error (m_theap m) (snd x)) as [t|]; [|discriminate]. destruct (zget (m_cauid m) _) as [hc|]; [|discriminate].
  destruct (nth_error (m_heap m) hc) as [c0|]; [|discriminate]. destruct (each _ _ _) as [m2|] eqn:E2; [|discriminate]. injection E1 as <-. cbn [store_class store_type m_theap].
  eapply each_theap; [exact E2|]. intros ->. pose proof (L x (or_introl eq_refl)) as Lx. destruct I as (((_ & _ & _ & W) & _) & _).
  apply W in Hz as (u & U1 & U2). apply W in Lx as (v & V1 & V2). assert (a = fst x) as -> by congruence.
  apply orb_false_elim in B as [_ B]. assert (existsb (Z.eqb (fst x)) (m_tset m) = true) by (apply existsb_exists; exists (fst x); split; [exact J|apply Z.eqb_refl]). congruence.
Qed.
Lemma each_classes_theap : forall l m m', each add_class l m = Ok m' -> m_theap m' = m_theap m.
Proof.
  assert (G : forall hc l m m', each (renew_for_class hc) l m = Ok m' -> m_theap m' = m_theap m).
  { intros hc. induction l as [|p l IH]; intros m m' E; cbn [each] in E; [injection E as <-; reflexivity|]. destruct (renew_for_class hc m p) as [m1|] eqn:E1; [|discriminate]. cbn [bind] in E.
    rewrite (IH _ _ E). unfold renew_for_class, renew in E1. destruct ((32768 <=? p_pid p) && _); [|injection E1 as <-; reflexivity]. destruct (next_free_pid _); [|discriminate]. cbn [bind] in E1.
    destruct (nth_error _ hc); [|discriminate]. injection E1 as <-. reflexivity. }
  induction l as [|x l IH]; intros m m' E; cbn [each] in E; [injection E as <-; reflexivity|]. destruct (add_class m x) as [m1|] eqn:E1; [|discriminate]. cbn [bind] in E. rewrite (IH _ _ E).
  unfold add_class in E1. destruct (_ || _); [injection E1 as <-; reflexivity|]. destruct (nth_error _ _); [|discriminate]. destruct (each _ _ _) as [m2|] eqn:E2; [|discriminate]. injection E1 as <-.
  cbn [store_class m_theap]. eapply G; eauto.
Qed.

(** ** Keys and indices of the dictionaries *)
Lemma zset_keys : forall V (d : list (Z * V)) k v, NoDup (map fst d) -> NoDup (map fst (zset d k v)).
Proof.
  intros V d k v N. assert (G : forall x, In x (map fst (zset d k v)) -> In x (map fst d) \/ x = k).
  { clear N. unfold zset. induction d as [|[a b] d IH]; cbn; [intros x [?|[]]; auto|]. intros x. destruct (Z.eqb_spec a k) as [->|]; cbn; [intuition|]. intros [?|H]; [auto|]. apply IH in H. intuition. }
  revert N G. unfold zset. induction d as [|[a b] d IH]; cbn; intros N G; [repeat constructor; intros []|]. inversion N; subst. destruct (Z.eqb_spec a k) as [->|NE]; cbn in *; [constructor; auto|].
  constructor.
  - intros H. assert (K : forall d x, In x (map fst (dict_set Z.eqb d k v)) -> In x (map fst d) \/ x = k).
    { clear. induction d as [|[a b] d IH]; cbn; [intros x [?|[]]; auto|]. intros x. destruct (Z.eqb_spec a k) as [->|]; cbn; [intuition|]. intros [?|H]; [auto|]. apply IH in H. intuition. }
    apply K in H as [H|H]; [auto|congruence].
  - apply IH; [auto|]. clear. intros x. revert x. induction d as [|[a' b'] d IH]; cbn; [intros x [?|[]]; auto|]. intros x. destruct (Z.eqb_spec a' k) as [->|]; cbn; [intuition|]. intros [?|H]; [auto|]. apply IH in H. intuition.
Qed.
Lemma load_keys : forall m fc ft, NoDup (map fst (m_cauid m)) -> NoDup (map fst (m_tauid m)) ->
  NoDup (map fst (m_cauid (load m fc ft))) /\ NoDup (map fst (m_tauid (load m fc ft))).
Proof.
  intros m fc ft A B. unfold load.
  assert (T : forall l x, NoDup (map fst (m_tauid x)) -> NoDup (map fst (m_tauid (fold_left load_type l x))) /\ m_cauid (fold_left load_type l x) = m_cauid x).
  { induction l as [|t l IH]; intros x H; cbn [fold_left]; [auto|]. apply (IH (load_type x t)). cbn [load_type m_tauid]. apply zset_keys. exact H. }
  assert (C : forall l x, NoDup (map fst (m_cauid x)) -> NoDup (map fst (m_cauid (fold_left load_class l x))) /\ m_tauid (fold_left load_class l x) = m_tauid x).
  { induction l as [|t l IH]; intros x H; cbn [fold_left]; [auto|]. apply (IH (load_class x t)). cbn [load_class m_cauid]. apply zset_keys. exact H. }
  destruct (T ft (emptied m fc ft) B) as [T1 T2]. destruct (C fc (fold_left load_type ft (emptied m fc ft))) as [C1 C2]; [rewrite T2; exact A|]. split; [exact C1|rewrite C2; exact T1].
Qed.
(** a class of the file is the same object by name and by identifier; so is a built-in one whose name and
    identifier the file does not use *)
Lemma load_index : forall fc m, let m' := fold_left load_class fc m in
  (NoDup (map c_auid fc) -> NoDup (map c_name fc) -> forall c, In c fc -> exists h, sget (m_cname m') (c_name c) = Some h /\ zget (m_cauid m') (c_auid c) = Some h) /\
  (forall n, ~ In n (map c_name fc) -> sget (m_cname m') n = sget (m_cname m) n) /\
  (forall a, ~ In a (map c_auid fc) -> zget (m_cauid m') a = zget (m_cauid m) a).
Proof.
  induction fc as [|x fc IH]; intros m; cbn [fold_left]; cbv zeta; [split; [intros _ _ c []|auto]|].
  destruct (IH (load_class m x)) as (I1 & I2 & I3). split; [|split].
  - cbn [map]. intros N1 N2 c [<-|I]; inversion N1; subst; inversion N2; subst; [|auto]. exists (List.length (m_heap m)). rewrite I2, I3 by auto. cbn [load_class m_cname m_cauid].
    rewrite sget_set, zget_set, String.eqb_refl, Z.eqb_refl. auto.
  - intros n N. cbn [map In] in N. rewrite I2 by tauto. cbn [load_class m_cname]. rewrite sget_set. destruct (String.eqb_spec (c_name x) n); [tauto|reflexivity].
  - intros n N. cbn [map In] in N. rewrite I3 by tauto. cbn [load_class m_cauid]. rewrite zget_set. destruct (Z.eqb_spec (c_auid x) n); [tauto|reflexivity].
Qed.
Lemma load_types_index : forall ft m, let m' := fold_left load_type ft m in
  (NoDup (map t_auid ft) -> NoDup (map t_name ft) -> forall t, In t ft -> exists h, sget (m_tname m') (t_name t) = Some h /\ zget (m_tauid m') (t_auid t) = Some h) /\
  (forall n, ~ In n (map t_name ft) -> sget (m_tname m') n = sget (m_tname m) n) /\
  (forall a, ~ In a (map t_auid ft) -> zget (m_tauid m') a = zget (m_tauid m) a).
Proof.
  induction ft as [|x ft IH]; intros m; cbn [fold_left]; cbv zeta; [split; [intros _ _ c []|auto]|].
  destruct (IH (load_type m x)) as (I1 & I2 & I3). split; [|split].
  - cbn [map]. intros N1 N2 c [<-|I]; inversion N1; subst; inversion N2; subst; [|auto]. exists (List.length (m_theap m)). rewrite I2, I3 by auto. cbn [load_type m_tname m_tauid].
    rewrite sget_set, zget_set, String.eqb_refl, Z.eqb_refl. auto.
  - intros n N. cbn [map In] in N. rewrite I2 by tauto. cbn [load_type m_tname]. rewrite sget_set. destruct (String.eqb_spec (t_name x) n); [tauto|reflexivity].
  - intros n N. cbn [map In] in N. rewrite I3 by tauto. cbn [load_type m_tauid]. rewrite zget_set. destruct (Z.eqb_spec (t_auid x) n); [tauto|reflexivity].
Qed.
