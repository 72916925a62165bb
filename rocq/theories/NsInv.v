(** The invariant of the namespace, its listings and look-ups. *)
From Coq Require Import ZArith List Bool Lia Sorting.Permutation Sorting.Sorted.
Import ListNotations.
From Verif Require Import Base BaseFacts LRUModel RBModel RBTree RBOrder RBInsert NsModel NsSpec NsPath.
Open Scope Z_scope.
Notation length := List.length.

(** ** dicts that list entries under their names *)
Section Dict.
Variable nm : Z -> name.
Definition dict_of (l : list Z) : dict := map (fun j => (nm j, j)) l.
Definition distinct (l : list Z) : Prop := forall i j, In i l -> In j l -> nm i = nm j -> i = j.

Lemma dict_of_snd : forall l, map snd (dict_of l) = l.
Proof. induction l as [|a l IH]; cbn; [auto|]. f_equal. auto. Qed.
Lemma dget_dict_in : forall l j, distinct l -> In j l -> dget (dict_of l) (nm j) = Some j.
Proof.
  induction l as [|a l IH]; intros j D H; [destruct H|]. cbn. destruct (zlist_eqb (nm a) (nm j)) eqn:E.
  - apply zlist_eqb_spec in E. f_equal. apply D; auto. left. auto.
  - destruct H as [->|H]; [rewrite zlist_eqb_refl in E; discriminate|]. apply IH; auto. intros x y Hx Hy. apply D; right; auto.
Qed.
Lemma dget_dict_inv : forall l n j, dget (dict_of l) n = Some j -> In j l /\ nm j = n.
Proof.
  induction l as [|a l IH]; intros n j H; cbn in H; [discriminate|]. destruct (zlist_eqb (nm a) n) eqn:E.
  - apply zlist_eqb_spec in E. injection H as ->. split; auto. left. auto.
  - apply IH in H as [H1 H2]. split; auto. right. auto.
Qed.
Lemma dget_dict_none : forall l n, dget (dict_of l) n = None <-> forall j, In j l -> nm j <> n.
Proof.
  induction l as [|a l IH]; intros n; cbn; [split; auto; intros _ j []|]. destruct (zlist_eqb (nm a) n) eqn:E.
  - apply zlist_eqb_spec in E. split; [discriminate|]. intros H. exfalso. apply (H a); auto.
  - rewrite IH. split.
    + intros H j [<-|Hj]; [intros X; apply zlist_eqb_spec in X; congruence|auto].
    + intros H j Hj. auto.
Qed.
Lemma dset_new : forall l i, (forall j, In j l -> nm j <> nm i) -> dset (dict_of l) (nm i) i = dict_of (l ++ [i]).
Proof.
  induction l as [|a l IH]; intros i H; cbn; auto. destruct (zlist_eqb (nm a) (nm i)) eqn:E.
  - apply zlist_eqb_spec in E. exfalso. apply (H a); auto. left. auto.
  - apply (f_equal (cons _)). apply IH. intros j Hj. apply H. right. auto.
Qed.
Lemma dset_old : forall l i, distinct l -> In i l -> dset (dict_of l) (nm i) i = dict_of l.
Proof.
  induction l as [|a l IH]; intros i D H; [destruct H|]. cbn. destruct (zlist_eqb (nm a) (nm i)) eqn:E.
  - apply zlist_eqb_spec in E. assert (a = i) by (apply D; auto; left; auto). subst a. auto.
  - destruct H as [->|H]; [rewrite zlist_eqb_refl in E; discriminate|]. apply (f_equal (cons _)). apply IH; auto. intros x y Hx Hy. apply D; right; auto.
Qed.
Lemma ddel_dict : forall l i, distinct l -> In i l -> ddel (dict_of l) (nm i) = dict_of (filter (fun j => negb (j =? i)) l).
Proof.
  intros l i D H. unfold ddel, dict_of. assert (Q : forall j, In j l -> zlist_eqb (nm j) (nm i) = (j =? i)).
  { intros j Hj. destruct (j =? i) eqn:E; [replace j with i by lia; apply zlist_eqb_refl|]. destruct (zlist_eqb _ _) eqn:F; auto. apply zlist_eqb_spec in F. apply D in F; auto. lia. }
  clear D H. induction l as [|a l IH]; cbn; auto. rewrite (Q a) by (left; auto). destruct (a =? i); cbn; rewrite IH; auto; intros j Hj; apply Q; right; auto.
Qed.
End Dict.
Lemma dict_of_ext : forall nm nm' l, (forall j, In j l -> nm' j = nm j) -> dict_of nm' l = dict_of nm l.
Proof. intros. apply map_ext_in. intros j Hj. rewrite H; auto. Qed.

(** ** children_cache *)
Lemma cget_In : forall c i d, cget c i = Some d -> In (i, d) c.
Proof.
  induction c as [|[k d0] c IH]; intros i d H; unfold cget in *; cbn in H; [discriminate|]. destruct (i =? k) eqn:E; [injection H as ->; left; f_equal; lia|right; auto].
Qed.
Lemma In_cput : forall c i d j x, In (j, x) (cput c i d) -> (j = i /\ x = d) \/ (j <> i /\ In (j, x) c).
Proof.
  intros c i d j x [H|H]; [injection H as -> ->; auto|]. right. unfold al_remove in H. apply filter_In in H as [H1 H2]. cbn in H2. split; auto. lia.
Qed.
Lemma In_cdel : forall c i j x, In (j, x) (cdel c i) -> j <> i /\ In (j, x) c.
Proof. intros c i j x H. unfold cdel, al_remove in H. apply filter_In in H as [H1 H2]. cbn in H2. split; auto. lia. Qed.
Lemma In_firstn : forall A n (l : list A) x, In x (firstn n l) -> In x l.
Proof. intros. rewrite <- (firstn_skipn n l). apply in_or_app. auto. Qed.
Lemma In_cadd : forall cap c i d j x, In (j, x) (cadd cap c i d) -> (j = i /\ x = d) \/ In (j, x) c.
Proof. intros cap c i d j x [H|H]; [injection H as -> ->; auto|]. right. eapply In_firstn; eauto. Qed.

(** ** paths through children *)
Section Walk.
Variables (nm : Z -> name) (ch : Z -> list Z).
Fixpoint walk (a : Z) (p : path) : option Z :=
  match p with
  | [] => Some a
  | n :: r => match List.find (fun j => zlist_eqb (nm j) n) (ch a) with Some j => walk j r | None => None end
  end.
Lemma walk_app : forall p q a, walk a (p ++ q) = match walk a p with Some b => walk b q | None => None end.
Proof. induction p as [|n p IH]; intros q a; cbn; auto. destruct (List.find _ _); auto. Qed.
Definition kids_distinct : Prop := forall i, distinct nm (ch i).
Lemma find_kid : forall a n j, kids_distinct -> (List.find (fun j => zlist_eqb (nm j) n) (ch a) = Some j <-> In j (ch a) /\ nm j = n).
Proof.
  intros a n j D. split.
  - intros H. apply find_some in H as [H1 H2]. apply zlist_eqb_spec in H2. auto.
  - intros [H1 H2]. destruct (List.find _ _) eqn:E.
    + apply find_some in E as [E1 E2]. apply zlist_eqb_spec in E2. f_equal. apply (D a); auto. congruence.
    + apply (find_none _ _ E) in H1. rewrite H2, zlist_eqb_refl in H1. discriminate.
Qed.
Lemma find_nokid : forall a n, List.find (fun j => zlist_eqb (nm j) n) (ch a) = None <-> forall j, In j (ch a) -> nm j <> n.
Proof.
  intros a n. split.
  - intros H j Hj E. apply (find_none _ _ H) in Hj. rewrite E, zlist_eqb_refl in Hj. discriminate.
  - intros H. destruct (List.find _ _) eqn:E; auto. apply find_some in E as [E1 E2]. apply zlist_eqb_spec in E2. exfalso. eapply H; eauto.
Qed.
Lemma walk_one : forall a n j, kids_distinct -> (walk a [n] = Some j <-> In j (ch a) /\ nm j = n).
Proof. intros a n j D. cbn. rewrite <- (find_kid a n j D). destruct (List.find _ _); split; congruence. Qed.
Lemma walk_snoc : forall p n a j, kids_distinct -> (walk a (p ++ [n]) = Some j <-> exists b, walk a p = Some b /\ In j (ch b) /\ nm j = n).
Proof.
  intros p n a j D. rewrite walk_app. destruct (walk a p) as [b|].
  - rewrite (walk_one b n j D). split; [intros H; exists b; auto|]. intros (b' & E & H). injection E as <-. auto.
  - split; [discriminate|]. intros (b & E & _). discriminate.
Qed.
(** every entry has at most one parent *)
Definition one_parent : Prop := forall i i' j, In j (ch i) -> In j (ch i') -> i = i'.
Lemma walk_up : forall p q a b j, kids_distinct -> one_parent -> walk a p = Some j -> walk b q = Some j -> (length p <= length q)%nat ->
  exists r, q = r ++ p /\ walk b r = Some a.
Proof.
  intros p. induction p as [|n p IH] using rev_ind; intros q a b j D O Hp Hq L.
  - cbn in Hp. injection Hp as ->. exists q. rewrite app_nil_r. auto.
  - destruct q as [|m q _] using rev_ind; [rewrite app_length in L; cbn in L; lia|]. rewrite !app_length in L. cbn in L.
    apply (proj1 (walk_snoc _ _ _ _ D)) in Hp as (x & P1 & P2 & P3). apply (proj1 (walk_snoc _ _ _ _ D)) in Hq as (y & Q1 & Q2 & Q3).
    assert (x = y) by (eapply O; eauto). subst y. destruct (IH q a b x D O P1 Q1) as (r & -> & R); [lia|].
    exists r. split; auto. rewrite <- app_assoc. f_equal. f_equal. congruence.
Qed.
Variable root : Z.
Hypothesis D : kids_distinct. Hypothesis O : one_parent. Hypothesis N : forall i, ~ In root (ch i).
Lemma walk_root : forall p a, walk a p = Some root -> p = [] /\ a = root.
Proof.
  intros p a H. destruct p as [|n p _] using rev_ind; [cbn in H; injection H as ->; auto|]. apply (proj1 (walk_snoc _ _ _ _ D)) in H as (b & _ & H & _). exfalso. eapply N; eauto.
Qed.
Lemma walk_inj : forall p q j, walk root p = Some j -> walk root q = Some j -> p = q.
Proof.
  assert (H : forall p q j, walk root p = Some j -> walk root q = Some j -> (length p <= length q)%nat -> p = q).
  { intros p q j Hp Hq L. destruct (walk_up p q root root j D O Hp Hq L) as (r & -> & R). apply walk_root in R as [-> _]. auto. }
  intros p q j Hp Hq. destruct (Nat.le_ge_cases (length p) (length q)); [|symmetry]; eauto.
Qed.
(** nothing reachable contains itself *)
Lemma walk_acyclic : forall q i p, walk root q = Some i -> walk i p = Some i -> p = [].
Proof.
  intros q i p Hq Hp. assert (E : q ++ p = q) by (eapply walk_inj; eauto; rewrite walk_app, Hq; auto).
  rewrite <- (app_nil_r q) in E at 2. apply app_inv_head in E. auto.
Qed.
(** two paths from a reachable entry to the same entry are the same *)
Lemma walk_inj_from : forall q i p p' j, walk root q = Some i -> walk i p = Some j -> walk i p' = Some j -> p = p'.
Proof.
  intros q i p p' j Hq Hp Hp'. apply (app_inv_head q). eapply walk_inj; rewrite walk_app, Hq; eauto.
Qed.
End Walk.
Lemma walk_ext : forall nm nm' ch ch' p a, (forall q b, walk nm ch a q = Some b -> (exists n r, p = q ++ n :: r) -> ch' b = ch b /\ forall j, In j (ch b) -> nm' j = nm j) -> walk nm' ch' a p = walk nm ch a p.
Proof.
  intros nm nm' ch ch' p. induction p as [|n p IH]; intros a H; cbn; auto. destruct (H [] a) as [E1 E2]; [reflexivity|exists n, p; auto|]. rewrite E1.
  assert (F : List.find (fun j => zlist_eqb (nm' j) n) (ch a) = List.find (fun j => zlist_eqb (nm j) n) (ch a)).
  { revert E2. clear. induction (ch a) as [|x l IH]; intros E2; cbn; auto. rewrite (E2 x) by (left; auto). destruct (zlist_eqb _ _); auto. apply IH. intros j Hj. apply E2. right. auto. }
  rewrite F. destruct (List.find (fun j => zlist_eqb (nm j) n) (ch a)) as [j|] eqn:E; auto. apply IH. intros q b Hq (m & r & ->). apply (H (n :: q) b); [cbn; rewrite E; auto|exists m, r; auto].
Qed.

(** ** the walk over a sibling tree *)
Definition below_all (st : store) (ts : list tree) : list Z := flat_map ids ts.
Lemma list_loop_ok : forall fuel st mx count ts l, Forall (fun t => t <> Lf) ts -> Forall (rep st) ts -> NoDup (l ++ flat_map ids ts) ->
  distinct (fun j => d_name (st j)) (l ++ flat_map ids ts) -> (length (flat_map ids ts) <= fuel)%nat -> count + zlen (flat_map ids ts) <= mx ->
  exists l', list_loop fuel st mx count (map (fun t => match rid t with Some i => i | None => 0 end) ts) (dict_of (fun j => d_name (st j)) l) = Ok (dict_of (fun j => d_name (st j)) (l ++ l')) /\
             Permutation l' (flat_map ids ts).
Proof.
  induction fuel as [|n IH]; intros st mx count ts l NL RP ND DS FU MX.
  - destruct ts as [|t ts]; [exists []; rewrite app_nil_r; cbn; auto|]. apply Forall_cons_iff in NL as [NL _]. destruct t; [tauto|]. cbn in FU. rewrite !app_length in FU. cbn in FU. lia.
  - destruct ts as [|t ts]; [exists []; rewrite app_nil_r; cbn; auto|]. apply Forall_cons_iff in NL as [NL0 NL]. apply Forall_cons_iff in RP as [RP0 RP]. destruct t as [|c tl i tr]; [tauto|].
    cbn [map rid list_loop]. cbn [flat_map ids] in *. destruct RP0 as (R1 & R2 & R3 & R4 & R5).
    rewrite !zlen_app, zlen_cons in MX. pose proof (zlen_nonneg _ (ids tl)). pose proof (zlen_nonneg _ (ids tr)). pose proof (zlen_nonneg _ (flat_map ids ts)).
    replace (count + 1 <=? mx) with true by lia. cbn [negb].
    assert (Pm : Permutation ((l ++ [i]) ++ (ids tr ++ (ids tl ++ flat_map ids ts))) (l ++ (ids tl ++ i :: ids tr) ++ flat_map ids ts)).
    { rewrite <- app_assoc. apply Permutation_app_head. cbn [app]. rewrite <- app_assoc. cbn [app].
      etransitivity; [|apply Permutation_middle]. apply perm_skip. rewrite !app_assoc. apply Permutation_app_tail. apply Permutation_app_comm. }
    pose proof (dset_new (fun j => d_name (st j)) l i) as DN. cbv beta in DN. rewrite DN; clear DN.
    2:{ intros j Hj E. assert (j = i) by (apply DS; auto; [apply in_or_app; auto|apply in_or_app; right; apply in_or_app; left; apply in_or_app; right; left; auto]). subst j.
        apply NoDup_app_iff in ND as (_ & _ & ND). apply (ND i Hj). apply in_or_app. left. apply in_or_app. right. left. auto. }
    set (ts1 := match tl with Lf => ts | _ => tl :: ts end). set (ts2 := match tr with Lf => ts1 | _ => tr :: ts1 end).
    assert (E1 : flat_map ids ts1 = ids tl ++ flat_map ids ts) by (unfold ts1; destruct tl; auto).
    assert (E2 : flat_map ids ts2 = ids tr ++ (ids tl ++ flat_map ids ts)) by (rewrite <- E1; unfold ts2; destruct tr; auto).
    destruct (IH st mx (count + 1) ts2 (l ++ [i])) as (l' & G1 & G2).
    + unfold ts2, ts1. destruct tl, tr; repeat constructor; auto; discriminate.
    + unfold ts2, ts1. destruct tl, tr; repeat constructor; auto; try (cbn in *; tauto).
    + rewrite E2. eapply Permutation_NoDup; [symmetry; exact Pm|]. auto.
    + rewrite E2. intros x y Hx Hy. apply DS; eapply Permutation_in; eauto.
    + rewrite E2. rewrite !app_length in *. cbn in FU. lia.
    + rewrite E2, !zlen_app. lia.
    + exists (i :: l'). rewrite <- app_assoc in G1. cbn [app] in G1. split.
      * rewrite <- G1. f_equal. rewrite R2, R3. unfold ts2, ts1. destruct tl, tr; reflexivity.
      * rewrite E2 in G2. rewrite <- app_assoc. cbn [app]. etransitivity; [apply perm_skip; exact G2|]. etransitivity; [|apply Permutation_middle]. apply perm_skip. rewrite !app_assoc. apply Permutation_app_tail. apply Permutation_app_comm.
Qed.

(** ** the invariant *)
Section Inv.
Variable upper : list Z -> list Z.
Variables (per : Z) (cap : nat).
Notation maxn := (maxn per).
Definition nmof (s : ns) (j : Z) : name := d_name (n_st s j).
Definition dirat (s : ns) (i : Z) : bool := isdir (d_kind (n_st s i)).

(** [ch]: the children of every entry, in search order; [L]: the entries in use. The cached listings of
    entries in [X] may be out of date. *)
Record Inv (X : Z -> Prop) (s : ns) (ch : Z -> list Z) (L : list Z) : Prop := {
  v_root : In 0 L; v_k0 : d_kind (n_st s 0) = ROOT; v_n0 : d_name (n_st s 0) = ROOT_NAME;
  v_kind : forall i, In i L -> i <> 0 -> d_kind (n_st s i) = STORAGE \/ d_kind (n_st s i) = STREAM;
  v_tree : forall i, In i L -> dirat s i = true -> exists t, holds (n_st s) i t /\ sorted upper (n_st s) (ids t) /\ ids t = ch i;
  v_leaf : forall i, ~ (In i L /\ dirat s i = true) -> ch i = [];
  v_sub : forall i j, In j (ch i) -> In j L /\ j <> 0 /\ n_par s j = Some i /\ clean_name (nmof s j);
  v_nodup : NoDup L; v_range : forall i, In i L -> 0 <= i < maxn s;
  v_free : NoDup (n_free s); v_frange : forall i, In i (n_free s) -> 0 <= i < maxn s /\ ~ In i L;
  v_cache : forall i d, In (i, d) (n_cache s) -> X i \/ (In i L /\ dirat s i = true /\ exists l, Permutation l (ch i) /\ d = dict_of (nmof s) l);
  v_per : 0 < per; v_secs : 0 <= n_secs s }.

Section Facts.
Variables (X : Z -> Prop) (s : ns) (ch : Z -> list Z) (L : list Z).
Hypothesis V : Inv X s ch L.
Lemma inv_dir : forall i j, In j (ch i) -> In i L /\ dirat s i = true.
Proof. intros i j H. destruct (in_dec Z.eq_dec i L) as [A|A], (dirat s i) eqn:B; auto; rewrite (v_leaf _ _ _ _ V i) in H; try (intros [A' B']; congruence); destruct H. Qed.
Lemma inv_one_parent : one_parent ch.
Proof. intros i i' j H H'. apply (v_sub _ _ _ _ V) in H as (_ & _ & H & _). apply (v_sub _ _ _ _ V) in H' as (_ & _ & H' & _). congruence. Qed.
Lemma sorted_distinct : forall st l, sorted upper st l -> distinct (fun j => d_name (st j)) l.
Proof.
  intros st l H. unfold sorted in H. induction H as [|a l S IH F]; intros i j Hi Hj E; [destruct Hi|]. rewrite Forall_forall in F.
  assert (N : forall x, In x l -> d_name (st a) <> d_name (st x)). { intros x Hx Q. apply F in Hx. unfold ent_lt in Hx. rewrite Q, name_lt_irrefl in Hx. discriminate. }
  destruct Hi as [<-|Hi], Hj as [<-|Hj]; auto; exfalso; eapply N; eauto.
Qed.
Lemma inv_tree : forall i, In i L -> dirat s i = true -> exists t, holds (n_st s) i t /\ sorted upper (n_st s) (ids t) /\ ids t = ch i.
Proof. exact (v_tree _ _ _ _ V). Qed.
Lemma inv_distinct : kids_distinct (nmof s) ch.
Proof.
  intros i. destruct (in_dec Z.eq_dec i L) as [A|A], (dirat s i) eqn:B; try (rewrite (v_leaf _ _ _ _ V i) by (intros [A' B']; congruence); intros ? ? []).
  destruct (inv_tree i A B) as (t & T1 & T2 & T3). rewrite <- T3. apply sorted_distinct. auto.
Qed.
Lemma inv_noroot : forall i, ~ In 0 (ch i).
Proof. intros i H. apply (v_sub _ _ _ _ V) in H as (_ & H & _). auto. Qed.
Lemma inv_ch_nodup : forall i, NoDup (ch i).
Proof.
  intros i. destruct (in_dec Z.eq_dec i L) as [A|A], (dirat s i) eqn:B; try (rewrite (v_leaf _ _ _ _ V i) by (intros [A' B']; congruence); constructor).
  destruct (inv_tree i A B) as (t & T1 & T2 & T3). rewrite <- T3. apply (h_nd _ _ _ T1).
Qed.
Lemma range_length : forall l n, NoDup l -> (forall i, In i l -> 0 <= i < n) -> zlen l <= Z.max 0 n.
Proof.
  intros l n H R. assert (Q : (length l <= length (zseq 0 n))%nat). { apply NoDup_incl_length; auto. intros i Hi. apply In_zseq. apply R in Hi. lia. }
  unfold zlen. unfold zseq in Q. rewrite map_length, seq_length in Q. lia.
Qed.
Lemma inv_few : forall i, zlen (ch i) < maxn s.
Proof.
  intros i. assert (N : NoDup (0 :: ch i)) by (constructor; [apply inv_noroot|apply inv_ch_nodup]).
  apply (range_length _ (maxn s)) in N.
  - rewrite zlen_cons in N. pose proof (v_range _ _ _ _ V 0 (v_root _ _ _ _ V)). lia.
  - intros j [<-|Hj]; [apply (v_range _ _ _ _ V), (v_root _ _ _ _ V)|]. apply (v_sub _ _ _ _ V) in Hj as (Hj & _). apply (v_range _ _ _ _ V). auto.
Qed.
Lemma inv_live : forall p a i, In a L -> walk (nmof s) ch a p = Some i -> In i L.
Proof.
  intros p a i Ha H. destruct p as [|n p _] using rev_ind; [cbn in H; injection H as <-; auto|]. apply (proj1 (walk_snoc _ _ _ _ _ _ inv_distinct)) in H as (b & _ & H & _). apply (v_sub _ _ _ _ V) in H. tauto.
Qed.
Lemma inv_dir0 : dirat s 0 = true.
Proof. unfold dirat. rewrite (v_k0 _ _ _ _ V). reflexivity. Qed.
(** the kinds *)
Lemma inv_kind_root : forall i, In i L -> (d_kind (n_st s i) = ROOT <-> i = 0).
Proof. intros i H. split; [|intros ->; apply (v_k0 _ _ _ _ V)]. intros E. destruct (Z.eq_dec i 0); auto. destruct (v_kind _ _ _ _ V i H n); unfold STORAGE, STREAM, ROOT in *; lia. Qed.
Lemma inv_isdir : forall i, In i L -> dirat s i = true -> is_storage (d_kind (n_st s i)).
Proof. intros i H E. unfold dirat, isdir, STORAGE, ROOT in E. unfold is_storage. apply orb_true_iff in E as [E|E]; lia. Qed.
Lemma inv_notdir : forall i, In i L -> dirat s i = false -> d_kind (n_st s i) = 2.
Proof. intros i H E. destruct (Z.eq_dec i 0) as [->|N]; [rewrite inv_dir0 in E; discriminate|]. destruct (v_kind _ _ _ _ V i H N) as [Q|Q]; auto. unfold dirat in E. rewrite Q in E. discriminate. Qed.
Lemma walk_clean : forall p a i, walk (nmof s) ch a p = Some i -> clean p.
Proof.
  induction p as [|n p IH]; intros a i H; [constructor|]. cbn in H. destruct (List.find _ _) as [j|] eqn:E; [|discriminate]. apply (proj1 (find_kid _ _ _ _ _ inv_distinct)) in E as [E1 E2].
  constructor; [rewrite <- E2; apply (v_sub _ _ _ _ V) in E1; tauto|eapply IH; eauto].
Qed.
End Facts.

(** changes of the cache only *)
Definition only_cache (s s' : ns) : Prop := exists c, s' = with_cache s c.
Lemma only_cache_refl : forall s, only_cache s s.
Proof. intros [a b c d e f]. exists e. reflexivity. Qed.
Lemma only_cache_trans : forall a b c, only_cache a b -> only_cache b c -> only_cache a c.
Proof. intros a b c [x ->] [y ->]. exists y. reflexivity. Qed.
Lemma inv_recache : forall X s ch L c, Inv X s ch L ->
  (forall i d, In (i, d) c -> In (i, d) (n_cache s) \/ (In i L /\ dirat s i = true /\ exists l, Permutation l (ch i) /\ d = dict_of (nmof s) l)) -> Inv X (with_cache s c) ch L.
Proof.
  intros X s ch L c [] H. constructor; try assumption. intros i d Hi. destruct (H i d Hi) as [G|G]; [exact (v_cache0 _ _ G)|right; exact G].
Qed.

Lemma listdir_ok : forall X s ch L i, Inv X s ch L -> In i L -> dirat s i = true -> ~ X i ->
  exists s' l, listdir_dict per cap s i = Done s' (dict_of (nmof s) l) /\ Permutation l (ch i) /\ Inv X s' ch L /\ only_cache s s' /\
    (n_cache s' = cput (n_cache s) i (dict_of (nmof s) l) \/ n_cache s' = cadd cap (n_cache s) i (dict_of (nmof s) l)) .
Proof.
  intros X s ch L i V Hi Hd HX. unfold listdir_dict. fold (dirat s i). rewrite Hd. cbn [negb].
  destruct (cget (n_cache s) i) as [d|] eqn:C.
  - destruct (v_cache _ _ _ _ V _ _ (cget_In _ _ _ C)) as [?|(_ & _ & l & P & ->)]; [tauto|].
    eexists; exists l. split; [reflexivity|]. split; auto. split; [|split; [eexists; reflexivity|auto]].
    apply inv_recache; auto. intros j d Hj. apply In_cput in Hj as [[-> ->]|[_ Hj]]; eauto 6.
  - destruct (inv_tree _ _ _ _ V i Hi Hd) as (t & T1 & T2 & T3). rewrite (h_child _ _ _ T1). destruct t as [|c tl x tr].
    + exists (with_cache s (cadd cap (n_cache s) i [])), []. cbn in T3. rewrite <- T3. split; [reflexivity|]. split; auto. split; [|split; [eexists; reflexivity|auto]].
      apply inv_recache; auto. intros j d Hj. apply In_cadd in Hj as [[-> ->]|Hj]; auto. right. split; auto. split; auto. exists []. rewrite <- T3. auto.
    + cbn [rid]. destruct (list_loop_ok (S (Z.to_nat (maxn s))) (n_st s) (maxn s) 0 [Nd c tl x tr] []) as (l & G1 & G2).
      * repeat constructor. discriminate.
      * repeat constructor; apply (h_rep _ _ _ T1).
      * cbn [flat_map app]. rewrite app_nil_r. apply (h_nd _ _ _ T1).
      * cbn [flat_map app]. rewrite app_nil_r. apply sorted_distinct. auto.
      * cbn [flat_map]. rewrite app_nil_r, T3. pose proof (inv_few _ _ _ _ V i). unfold zlen in H. lia.
      * cbn [flat_map]. rewrite app_nil_r, T3. pose proof (inv_few _ _ _ _ V i). lia.
      * cbn [map rid] in G1. cbn [app] in G1. change (dict_of (fun j => d_name (n_st s j)) []) with (@nil (list Z * Z)) in G1. rewrite G1.
        cbn [flat_map] in G2. rewrite app_nil_r, T3 in G2. exists (with_cache s (cadd cap (n_cache s) i (dict_of (nmof s) l))), l. split; [reflexivity|]. split; auto. split; [|split; [eexists; reflexivity|auto]].
        apply inv_recache; auto. intros j d Hj. apply In_cadd in Hj as [[-> ->]|Hj]; eauto 6.
Qed.
End Inv.
