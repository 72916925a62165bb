(** Removal of whole subtrees. *)
From Coq Require Import ZArith List Bool Lia Sorting.Permutation Sorting.Sorted.
Import ListNotations.
From Verif Require Import Base BaseFacts LRUModel RBModel RBTree RBOrder RBInsert RBPop RBSpec RBLink RBAny NsModel NsSpec NsPath NsInv NsFind NsChange NsSteps.
Open Scope Z_scope.
Notation length := List.length.

Section Sub.
Variable ch : Z -> list Z.
(** what is strictly below an entry, to a depth; and that the depth is enough *)
Fixpoint sub (n : nat) (i : Z) : list Z := match n with O => [] | S n' => flat_map (fun j => j :: sub n' j) (ch i) end.
Fixpoint deep (n : nat) (i : Z) : Prop := match n with O => ch i = [] | S n' => forall j, In j (ch i) -> deep n' j end.
End Sub.
Lemma flat_map_ext_in : forall A B (f g : A -> list B) l, (forall x, In x l -> f x = g x) -> flat_map f l = flat_map g l.
Proof. intros A B f g l H. induction l as [|a l IH]; cbn; auto. rewrite H by (left; auto). f_equal. apply IH. intros x Hx. apply H. right. auto. Qed.
Lemma In_sub_step : forall ch n i j x, In j (ch i) -> x = j \/ In x (sub ch n j) -> In x (sub ch (S n) i).
Proof. intros ch n i j x Hj H. cbn. apply in_flat_map. exists j. split; auto. destruct H as [->|H]; [left|right]; auto. Qed.
Lemma sub_ext : forall ch ch' n i, (forall x, x = i \/ In x (sub ch n i) -> ch' x = ch x) -> sub ch' n i = sub ch n i.
Proof.
  intros ch ch' n. induction n as [|n IH]; intros i H; cbn [sub]; auto. rewrite (H i) by auto. apply flat_map_ext_in. intros j Hj. f_equal. apply IH. intros x Hx. apply H. right. eapply In_sub_step; eauto.
Qed.
Lemma deep_ext : forall ch ch' n i, (forall x, x = i \/ In x (sub ch n i) -> ch' x = ch x) -> deep ch n i -> deep ch' n i.
Proof.
  intros ch ch' n. induction n as [|n IH]; intros i H D; cbn [deep] in *; [rewrite H; auto|]. rewrite (H i) by auto. intros j Hj. apply IH; auto. intros x Hx. apply H. right. eapply In_sub_step; eauto.
Qed.
Lemma sub_walk : forall nm ch n i x, kids_distinct nm ch -> (In x (sub ch n i) <-> exists p, p <> [] /\ (length p <= n)%nat /\ walk nm ch i p = Some x).
Proof.
  intros nm ch n. induction n as [|n IH]; intros i x D.
  - cbn. split; [tauto|]. intros (p & H1 & H2 & _). destruct p; [tauto|cbn in H2; lia].
  - cbn [sub]. rewrite in_flat_map. split.
    + intros (j & Hj & [<-|H]).
      * exists [nm j]. split; [discriminate|]. split; [cbn; lia|]. apply walk_one; auto.
      * apply IH in H as (p & H1 & H2 & H3); auto. exists (nm j :: p). split; [discriminate|]. split; [cbn; lia|]. cbn. replace (List.find _ _) with (Some j); auto. symmetry. apply find_kid; auto.
    + intros (p & H1 & H2 & H3). destruct p as [|m p]; [tauto|]. cbn in H3, H2. destruct (List.find _ _) as [j|] eqn:E; [|discriminate]. apply (proj1 (find_kid _ _ _ _ _ D)) in E as [E1 E2]. exists j. split; auto.
      destruct p as [|m' p]; [cbn in H3; injection H3 as ->; left; auto|]. right. apply IH; auto. exists (m' :: p). split; [discriminate|]. split; auto. lia.
Qed.
Lemma deep_walk : forall nm ch n i, kids_distinct nm ch -> (forall p j, walk nm ch i p = Some j -> (length p <= n)%nat) -> deep ch n i.
Proof.
  intros nm ch n. induction n as [|n IH]; intros i D H; cbn.
  - destruct (ch i) as [|j l] eqn:E; auto. exfalso. specialize (H [nm j] j). cbn in H. assert (1 <= 0)%nat; [apply H|lia]. rewrite E. cbn. rewrite zlist_eqb_refl. auto.
  - intros j Hj. apply IH; auto. intros p x Hx. assert (S (length p) <= S n)%nat; [|lia]. apply (H (nm j :: p) x). cbn. replace (List.find _ _) with (Some j); auto. symmetry. apply find_kid; auto.
Qed.
Lemma sub_nodup : forall nm ch n q i, kids_distinct nm ch -> one_parent ch -> (forall x, ~ In 0 (ch x)) -> (forall x, NoDup (ch x)) -> walk nm ch 0 q = Some i -> NoDup (sub ch n i).
Proof.
  intros nm ch n. induction n as [|n IH]; intros q i D O N ND Hq; cbn [sub]; [constructor|].
  assert (Step : forall j r, In j (ch i) -> walk nm ch i (nm j :: r) = walk nm ch j r). { intros j r Hj. cbn. replace (List.find _ _) with (Some j); auto. symmetry. apply find_kid; auto. }
  assert (G : forall l, NoDup l -> (forall j, In j l -> In j (ch i)) -> NoDup (flat_map (fun j => j :: sub ch n j) l)).
  { induction l as [|j l IHl]; intros Hn Hi; [constructor|]. inversion Hn; subst. assert (Hj : In j (ch i)) by (apply Hi; left; auto). cbn [flat_map].
    apply NoDup_app_iff. split; [|split].
    - constructor; [|apply (IH (q ++ [nm j])); auto; apply walk_snoc; auto; exists i; auto]. intros Q. apply (sub_walk nm) in Q as (p & P1 & P2 & P3); auto.
      apply (walk_acyclic nm ch 0 D O N (q ++ [nm j])) in P3; auto. apply walk_snoc; auto. exists i. auto.
    - apply IHl; auto. intros x Hx. apply Hi. right. auto.
    - intros x Hx Hy. apply in_flat_map in Hy as (j' & Hj' & Hy). assert (Q : forall k, In k (ch i) -> In x (k :: sub ch n k) -> exists p, walk nm ch i (nm k :: p) = Some x).
      { intros k Hk [<-|Hk']; [exists []; rewrite Step; auto|]. apply (sub_walk nm) in Hk' as (p & _ & _ & P3); auto. exists p. rewrite Step; auto. }
      destruct (Q j Hj Hx) as (p1 & P1). destruct (Q j') as (p2 & P2); auto; [apply Hi; right; auto|].
      pose proof (walk_inj_from nm ch 0 D O N q i _ _ x Hq P1 P2) as E. injection E as E _. assert (j = j') by (apply (D i); auto; apply Hi; right; auto). subst j'. auto. }
  apply G; auto.
Qed.
(** the number of entries bounds the depth *)
Lemma walk_length : forall nm ch L q i, kids_distinct nm ch -> one_parent ch -> (forall x, ~ In 0 (ch x)) -> In 0 L -> (forall x j, In j (ch x) -> In j L) -> walk nm ch 0 q = Some i ->
  (length q < length L)%nat.
Proof.
  intros nm ch L q i D O N H0 HL Hq. assert (G : exists l, NoDup l /\ length l = S (length q) /\ forall y, In y l -> In y L /\ exists r, walk nm ch 0 r = Some y /\ (length r <= length q)%nat).
  { revert i Hq. induction q as [|n q IH] using rev_ind; intros i Hq.
    - exists [0]. split; [constructor; [auto|constructor]|]. split; auto. intros y [<-|[]]. split; auto. exists []. auto.
    - pose proof Hq as Hq'. apply (proj1 (walk_snoc _ _ _ _ _ _ D)) in Hq as (b & B1 & B2 & B3). destruct (IH b B1) as (l & L1 & L2 & L3). rewrite app_length. cbn [length]. exists (i :: l). split; [|split].
      + constructor; auto. intros Q. apply L3 in Q as (_ & r & R1 & R2). assert (r = q ++ [n]) by (eapply walk_inj; eauto). subst r. rewrite app_length in R2. cbn in R2. lia.
      + cbn. lia.
      + intros y [<-|Hy]; [split; eauto; exists (q ++ [n]); rewrite app_length; cbn; split; auto; lia|]. apply L3 in Hy as (Y1 & r & R1 & R2). split; auto. exists r. split; auto. lia. }
  destruct G as (l & G1 & G2 & G3). assert (length l <= length L)%nat by (apply NoDup_incl_length; auto; intros y Hy; apply G3; auto). lia.
Qed.

Lemma perm_filter : forall (f : Z -> bool) a b, Permutation a b -> Permutation (filter f a) (filter f b).
Proof. intros f a b P. induction P; cbn; auto; repeat match goal with |- context [f ?x] => destruct (f x); cbn end; auto; try (etransitivity; eauto); try constructor. Qed.
Lemma perm_split : forall (f : Z -> bool) l, Permutation (filter (fun x => negb (f x)) l ++ filter f l) l.
Proof.
  intros f l. induction l as [|a l IH]; cbn; auto. destruct (f a); cbn; [|auto]. symmetry. etransitivity; [|apply Permutation_middle]. apply perm_skip. symmetry. auto.
Qed.
Lemma perm_flat : forall (f : Z -> list Z) l, Permutation (flat_map (fun j => j :: f j) l) (flat_map f l ++ l).
Proof.
  intros f l. induction l as [|a l IH]; cbn; auto. etransitivity; [apply perm_skip; apply Permutation_app_head; exact IH|]. rewrite <- app_assoc. rewrite app_assoc. etransitivity; [apply Permutation_middle|]. rewrite <- app_assoc. auto.
Qed.
Lemma perm_flat_map : forall (f : Z -> list Z) a b, Permutation a b -> Permutation (flat_map f a) (flat_map f b).
Proof.
  intros f a b P. induction P; cbn; auto.
  - apply Permutation_app_head. auto.
  - rewrite !app_assoc. apply Permutation_app_tail. apply Permutation_app_comm.
  - etransitivity; eauto.
Qed.
Lemma flat_map_drop : forall (f : Z -> list Z) (g : Z -> bool) l, (forall j, In j l -> g j = false -> f j = []) -> flat_map f (filter g l) = flat_map f l.
Proof. intros f g l H. induction l as [|a l IH]; cbn; auto. destruct (g a) eqn:E; cbn; rewrite IH; auto; try (intros; apply H; auto; right; auto). rewrite (H a); auto. left. auto. Qed.
Lemma filter_none : forall (f : Z -> bool) l, (forall x, In x l -> f x = false) -> filter f l = [].
Proof. intros f l H. induction l as [|a l IH]; cbn; auto. rewrite H by (left; auto). apply IH. intros x Hx. apply H. right. auto. Qed.
Lemma filter_all : forall (f : Z -> bool) l, (forall x, In x l -> f x = true) -> filter f l = l.
Proof. intros f l H. induction l as [|a l IH]; cbn; auto. rewrite H by (left; auto). f_equal. apply IH. intros x Hx. apply H. right. auto. Qed.

Section Rm.
Variable upper : list Z -> list Z.
Variables (per : Z) (cap : nat).
Notation Inv := (Inv upper per).
Notation maxn := (maxn per).
Notation none := (fun _ : Z => False).

(** what changes when everything in [D] is released and the folders [E] are emptied *)
Record cleared (s : ns) (ch : Z -> list Z) (L D E : list Z) (s' : ns) (ch' : Z -> list Z) (L' : list Z) : Prop := {
  cl_live : forall x, In x L' <-> In x L /\ ~ In x D;
  cl_gone : forall x, In x D \/ In x E -> ch' x = []; cl_kept : forall x, ~ In x D -> ~ In x E -> ch' x = ch x;
  cl_free : exists F, n_free s' = n_free s ++ F /\ Permutation F D;
  cl_log : exists G, n_log s' = n_log s ++ G /\ Permutation G (filter (fun x => negb (dirat s x)) D);
  cl_secs : n_secs s' = n_secs s; cl_par : n_par s' = n_par s;
  cl_names : forall x, d_name (n_st s' x) = d_name (n_st s x) /\ d_kind (n_st s' x) = d_kind (n_st s x) }.
Lemma dirat_names : forall s s' x, (forall x, d_name (n_st s' x) = d_name (n_st s x) /\ d_kind (n_st s' x) = d_kind (n_st s x)) -> dirat s' x = dirat s x.
Proof. intros s s' x H. unfold dirat. rewrite (proj2 (H x)). auto. Qed.

Lemma rm_fold_ok : forall n,
  (forall X s ch L root, Inv X s ch L -> In root L -> dirat s root = true -> deep ch n root -> NoDup (root :: sub ch n root) -> (forall x, In x (root :: sub ch n root) -> ~ X x) ->
    exists s' ch' L', rm_visit per cap (S n) s root = Done s' tt /\ Inv (fun x => x = root \/ X x) s' ch' L' /\ cleared s ch L (sub ch n root) [root] s' ch' L') ->
  forall ds X s ch L, Inv X s ch L -> (forall d, In d ds -> In d L /\ dirat s d = true /\ deep ch n d) -> NoDup (flat_map (fun d => d :: sub ch n d) ds) ->
    (forall x, In x (flat_map (fun d => d :: sub ch n d) ds) -> ~ X x) ->
    exists s' ch' L', fold_left (fun r i => let* s', _ <- r ;; rm_visit per cap (S n) s' i) ds (Done s tt) = Done s' tt /\
      Inv (fun x => In x ds \/ X x) s' ch' L' /\ cleared s ch L (flat_map (sub ch n) ds) ds s' ch' L'.
Proof.
  intros n IH. induction ds as [|d ds IHd]; intros X s ch L V Hd ND HX.
  - exists s, ch, L. cbn. split; auto. split; [eapply inv_weaken; [exact V|auto]|]. constructor; cbn; auto; try tauto; exists []; rewrite app_nil_r; auto.
  - cbn [flat_map] in *. apply NoDup_app_iff in ND as (N1 & N2 & N3). destruct (Hd d) as (D1 & D2 & D3); [left; auto|].
    destruct (IH X s ch L d V D1 D2 D3 N1) as (s1 & ch1 & L1 & E1 & V1 & C1). { intros x Hx. apply HX. apply in_or_app. auto. }
    destruct C1 as [c1 c2 c3 (F & c4 & c4') (G & c5 & c5') c6 c7 c8].
    assert (Q : forall d' x, In d' ds -> In x (d' :: sub ch n d') -> ch1 x = ch x).
    { intros d' x Hd' Hx. assert (Hx' : In x (flat_map (fun d => d :: sub ch n d) ds)) by (apply in_flat_map; eauto). apply c3; [intros Z; apply (N3 x); auto; right; auto|intros [<-|[]]; apply (N3 d); auto; left; auto]. }
    assert (Qs : forall d', In d' ds -> sub ch1 n d' = sub ch n d') by (intros d' Hd'; apply sub_ext; intros x [->|Hx]; eapply Q; eauto; [left|right]; auto).
    assert (Qf : flat_map (fun d => d :: sub ch1 n d) ds = flat_map (fun d => d :: sub ch n d) ds) by (apply flat_map_ext_in; intros x Hx; rewrite Qs; auto).
    assert (Qg : flat_map (sub ch1 n) ds = flat_map (sub ch n) ds) by (apply flat_map_ext_in; intros x Hx; rewrite Qs; auto).
    destruct (IHd (fun x => x = d \/ X x) s1 ch1 L1 V1) as (s2 & ch2 & L2 & E2 & V2 & C2).
    + intros d' Hd'. destruct (Hd d') as (A1 & A2 & A3); [right; auto|]. split; [|split].
      * apply c1. split; auto. intros Z. apply (N3 d'); [right; auto|]. apply in_flat_map. exists d'. split; auto. left. auto.
      * rewrite (dirat_names s); auto.
      * eapply deep_ext; [|exact A3]. intros x [->|Hx]; eapply Q; eauto; [left|right]; auto.
    + rewrite Qf. auto.
    + rewrite Qf. intros x Hx [->|Z]; [apply (N3 d); auto; left; auto|]. revert Z. apply HX. apply in_or_app. auto.
    + cbn [fold_left nbind]. rewrite E1. exists s2, ch2, L2. split; [exact E2|]. split; [eapply inv_weaken; [exact V2|intros x [Z|[->|Z]]; cbn; auto]|].
      destruct C2 as [e1 e2 e3 (F' & e4 & e4') (G' & e5 & e5') e6 e7 e8]. rewrite Qg in *. cbn [flat_map]. constructor.
      * intros x. rewrite e1, c1, in_app_iff. tauto.
      * intros x Hx. destruct (in_dec Z.eq_dec x (flat_map (sub ch n) ds)) as [Z1|Z1]; [apply e2; auto|]. destruct (in_dec Z.eq_dec x ds) as [Z2|Z2]; [apply e2; auto|].
        rewrite e3 by auto. apply c2. cbn in Hx |- *. rewrite in_app_iff in Hx. tauto.
      * intros x Z1 Z2. rewrite in_app_iff in Z1. cbn in Z2. rewrite e3 by tauto. apply c3; [tauto|]. cbn. tauto.
      * exists (F ++ F'). split; [rewrite e4, c4, app_assoc; auto|]. apply Permutation_app; auto.
      * exists (G ++ G'). split; [rewrite e5, c5, app_assoc; auto|]. rewrite filter_app. apply Permutation_app; auto. etransitivity; [exact e5'|].
        assert (Z : forall l, filter (fun x => negb (dirat s1 x)) l = filter (fun x => negb (dirat s x)) l) by (intros l; apply filter_ext; intros x; rewrite (dirat_names s); auto). rewrite Z. auto.
      * rewrite e6, c6. auto. * rewrite e7, c7. auto.
      * intros x. rewrite (proj1 (e8 x)), (proj2 (e8 x)). apply c8.
Qed.

Lemma rm_visit_ok : forall n X s ch L root, Inv X s ch L -> In root L -> dirat s root = true -> deep ch n root -> NoDup (root :: sub ch n root) -> (forall x, In x (root :: sub ch n root) -> ~ X x) ->
    exists s' ch' L', rm_visit per cap (S n) s root = Done s' tt /\ Inv (fun x => x = root \/ X x) s' ch' L' /\ cleared s ch L (sub ch n root) [root] s' ch' L'.
Proof.
  induction n as [|n IH]; intros X s ch L root V Hr Dr Dp ND HX.
  - destruct (listdir_ok upper per cap X s ch L root V Hr Dr) as (s1 & l & E1 & P1 & V1 & O1 & _); [apply HX; left; auto|].
    cbn in Dp. rewrite Dp in P1. symmetry in P1. apply Permutation_nil in P1. subst l. cbn [rm_visit]. rewrite E1. cbn [nbind map filter dict_of fold_left].
    destruct (drop_ok upper per X s1 ch L root [] [] V1 Hr) as (V2 & A & B & C & D & E); [rewrite Dp; auto|rewrite Dp; intros j []|].
    eexists; eexists; eexists. split; [reflexivity|]. split; [eapply inv_weaken; [exact V2|cbn; tauto]|]. destruct (only_cache_nm _ _ O1) as (q1 & q2 & q3 & q4 & q5 & q6).
    cbn [sub]. constructor; try (intros x).
    + rewrite In_without, Dp. tauto.
    + intros [[]|[<-|[]]]. rewrite Z.eqb_refl. auto.
    + intros _ Hx. cbn in Hx. replace (x =? root) with false by lia. auto.
    + exists []. rewrite A, q4. auto.
    + exists []. rewrite B, q6. auto.
    + rewrite C, q5. auto. + rewrite D, q3. auto.
    + rewrite E, q2. pose proof (set_child_links (n_st s) root None x). tauto.
  - destruct (listdir_ok upper per cap X s ch L root V Hr Dr) as (s1 & l & E1 & P1 & V1 & O1 & _); [apply HX; left; auto|].
    cbn [deep] in Dp. remember (S n) as m. cbn [rm_visit]. subst m. rewrite E1. cbn [nbind]. rewrite dict_of_snd.
    destruct (only_cache_nm _ _ O1) as (q1 & q2 & q3 & q4 & q5 & q6).
    assert (Il : forall x, In x l <-> In x (ch root)) by (intros x; split; apply Permutation_in; auto; symmetry; auto).
    set (dirs := filter (fun i => isdir (d_kind (n_st s1 i))) l). set (streams := filter (fun i => negb (isdir (d_kind (n_st s1 i)))) l).
    assert (Pd : Permutation (streams ++ dirs) (ch root)) by (etransitivity; [apply (perm_split (fun i => isdir (d_kind (n_st s1 i)))) | exact P1]).
    assert (Dirs : forall x, In x dirs <-> In x (ch root) /\ dirat s x = true) by (intros x; unfold dirs; rewrite filter_In, Il; unfold dirat; rewrite q2; tauto).
    assert (Strs : forall x, In x streams <-> In x (ch root) /\ dirat s x = false) by (intros x; unfold streams; rewrite filter_In, Il; unfold dirat; rewrite q2; destruct (isdir _); cbn; intuition; discriminate).
    assert (Leaf : forall x, In x (ch root) -> dirat s x = false -> ch x = []) by (intros x _ Hx; apply (v_leaf _ _ _ _ _ _ V); intros [_ Z]; congruence).
    assert (LeafS : forall x m, In x (ch root) -> dirat s x = false -> sub ch m x = []) by (intros x m Hx Hd; destruct m; cbn; auto; rewrite Leaf; auto).
    assert (NDk : NoDup (flat_map (fun j => j :: sub ch n j) dirs)).
    { assert (Z : NoDup (flat_map (fun j => j :: sub ch n j) (streams ++ dirs))).
      { eapply Permutation_NoDup; [symmetry; apply perm_flat_map; exact Pd|]. inversion ND; auto. }
      rewrite flat_map_app in Z. apply NoDup_app_iff in Z. tauto. }
    assert (Sb : forall x, In x (flat_map (fun j => j :: sub ch n j) dirs) -> In x (sub ch (S n) root)).
    { intros x Hx. cbn. apply in_flat_map in Hx as (j & Hj & Hx). apply in_flat_map. exists j. split; auto. apply Dirs in Hj. tauto. }
    destruct (rm_fold_ok n IH dirs X s1 ch L V1) as (s2 & ch2 & L2 & E2 & V2 & C2).
    { intros d Hd. apply Dirs in Hd as [H1 H2]. split; [apply (v_sub _ _ _ _ _ _ V) in H1; tauto|]. split; auto. unfold dirat. rewrite q2. auto. }
    { auto. }
    { intros x Hx. apply HX. right. auto. }
    rewrite E2. cbn [nbind]. destruct C2 as [c1 c2 c3 (F & c4 & c4') (G & c5 & c5') c6 c7 c8].
    assert (Rn : ~ In root (sub ch (S n) root)) by (inversion ND; auto).
    assert (Rd : ~ In root dirs). { intros Z. apply Rn. apply Sb. apply in_flat_map. exists root. split; auto. left. auto. }
    assert (Rs : ~ In root (flat_map (sub ch n) dirs)). { intros Z. apply Rn. apply Sb. apply in_flat_map in Z as (j & Z1 & Z2). apply in_flat_map. exists j. split; auto. right. auto. }
    assert (Cr : ch2 root = ch root) by (apply c3; auto).
    assert (Kd : forall j, In j (ch root) -> ch2 j = []).
    { intros j Hj. destruct (in_dec Z.eq_dec j dirs) as [Z|Z]; [apply c2; auto|]. destruct (in_dec Z.eq_dec j (flat_map (sub ch n) dirs)) as [Z'|Z']; [apply c2; auto|]. rewrite c3 by auto. apply Leaf; auto. destruct (dirat s j) eqn:Q; auto. exfalso. apply Z. apply Dirs. auto. }
    destruct (drop_ok upper per _ s2 ch2 L2 root streams dirs V2) as (V3 & A & B & C & D & E).
    { apply c1. auto. } { rewrite Cr. auto. } { rewrite Cr. auto. }
    eexists; eexists; eexists. split; [reflexivity|]. split; [eapply inv_weaken; [exact V3|]|].
    + cbn. rewrite Cr. intros x [Z|[[Z|Z] Z']]; auto. exfalso. apply Z'. apply Dirs in Z. tauto.
    + assert (PD : Permutation (flat_map (sub ch n) dirs ++ streams ++ dirs) (sub ch (S n) root)).
      { cbn [sub]. etransitivity; [|symmetry; apply perm_flat]. apply Permutation_app; auto. unfold dirs. rewrite flat_map_drop; [apply perm_flat_map; auto|]. intros j Hj Z. apply LeafS; [apply Il; auto|]. unfold dirat. rewrite <- q2. auto. }
      assert (Dx : forall x, In x (sub ch (S n) root) <-> In x (flat_map (sub ch n) dirs) \/ In x (ch root)).
      { intros x. split; intros Z.
        - apply (Permutation_in _ (Permutation_sym PD)) in Z. apply in_app_or in Z as [Z|Z]; auto. right. eapply Permutation_in; eauto.
        - apply (Permutation_in _ PD). apply in_or_app. destruct Z as [Z|Z]; auto. right. eapply Permutation_in; [symmetry; exact Pd|auto]. }
      constructor.
      * intros x. rewrite In_without, c1, Cr, Dx. tauto.
      * intros x Hx. destruct (x =? root) eqn:Q; auto. destruct Hx as [Hx|[<-|[]]]; [|lia]. apply Dx in Hx as [Hx|Hx]; auto. 
      * intros x H1 H2. cbn in H2. replace (x =? root) with false by lia. rewrite Dx in H1. apply c3; [tauto|]. intros Z. apply Dirs in Z. tauto.
      * exists (F ++ streams ++ dirs). rewrite A, c4, q4, <- app_assoc. split; auto. etransitivity; [apply Permutation_app_tail; exact c4'|]. auto.
      * exists (G ++ streams). rewrite B, c5, q6, <- app_assoc. split; auto. etransitivity; [apply Permutation_app_tail; exact c5'|]. etransitivity; [|apply perm_filter; exact PD]. rewrite !filter_app.
        assert (Z1 : filter (fun x => negb (dirat s x)) streams = streams) by (apply filter_all; intros x Hx; apply Strs in Hx as [_ Hx]; rewrite Hx; auto).
        assert (Z2 : filter (fun x => negb (dirat s x)) dirs = []) by (apply filter_none; intros x Hx; apply Dirs in Hx as [_ Hx]; rewrite Hx; auto).
        rewrite Z1, Z2, app_nil_r. apply Permutation_app_tail. unfold dirat. rewrite q2. auto.
      * rewrite C, c6, q5. auto. * rewrite D, c7, q3. auto.
      * intros x. rewrite E. pose proof (set_child_links (n_st s2) root None x) as (_ & _ & _ & Z1 & Z2). rewrite Z1, Z2, (proj1 (c8 x)), (proj2 (c8 x)), q2. auto.
Qed.

Lemma rmtree_ok : forall s ch L p, Inv none s ch L -> clean p -> p <> [] ->
  (exists s' e, rmtree upper per cap s (text_of p) = Fail s' e /\ Inv none s' ch L /\ only_cache s s' /\
     ((blocked (view s ch) p /\ e = ValueError) \/ (~ blocked (view s ch) p /\ view s ch p = None /\ e = GenericError) \/ (~ blocked (view s ch) p /\ e = ValueError /\ exists i, view s ch p = Some (i, 2)))) \/
  (exists s' ch' L' i F G, rmtree upper per cap s (text_of p) = Done s' tt /\ Inv none s' ch' L' /\ ~ blocked (view s ch) p /\ view s ch p = Some (i, 1) /\ cut_at (view s ch) p (view s' ch') /\
     n_free s' = n_free s ++ F /\ NoDup F /\ (forall x, In x F <-> exists r k, view s ch (p ++ r) = Some (x, k)) /\
     n_log s' = n_log s ++ G /\ NoDup G /\ (forall x, In x G <-> exists r, view s ch (p ++ r) = Some (x, 2))).
Proof.
  intros s ch L p V C Pn. pose proof (inv_distinct _ _ _ _ _ _ V) as Dd. pose proof (inv_one_parent _ _ _ _ _ _ V) as Oo. pose proof (inv_noroot _ _ _ _ _ _ V) as Nn. pose proof (inv_ch_nodup _ _ _ _ _ _ V) as Nd.
  unfold rmtree. destruct (find_ok upper per cap p none s ch L V C) as (s1 & V1 & O1 & _ & [[H1 ->]|(H1 & -> & _)]); [auto| |].
  { left. exists s1, ValueError. split; auto. split; auto. split; auto. left. split; auto. eapply blocked_iff; eauto. }
  assert (NB : ~ blocked (view s ch) p) by (intros Q; apply H1; eapply blocked_iff; eauto).
  cbn [nbind]. destruct (walk (nmof s) ch 0 p) as [i|] eqn:W.
  2:{ left. exists s1, GenericError. split; auto. split; auto. split; auto. right; left. split; auto. split; auto. apply view_None. auto. }
  assert (Hi : In i L) by (eapply (inv_live _ _ _ _ _ _ V); [|exact W]; apply (v_root _ _ _ _ _ _ V)).
  destruct (only_cache_nm _ _ O1) as (q1 & q2 & q3 & q4 & q5 & q6). fold (dirat s1 i).
  destruct (dirat s1 i) eqn:Di; cbn [negb].
  2:{ left. exists s1, ValueError. split; auto. split; auto. split; auto. right; right. split; auto. split; auto. exists i. apply view_Some. split; auto. symmetry. rewrite <- q2. eapply inv_notdir; eauto. }
  assert (Di' : dirat s i = true) by (unfold dirat in *; rewrite <- q2; auto).
  assert (Zi : i <> 0). { intros ->. apply (walk_root _ _ _ Dd Nn) in W. tauto. }
  assert (Ki : d_kind (n_st s i) = 1). { pose proof (inv_isdir s L i Hi Di') as [K|K]; auto. exfalso. apply Zi. apply (inv_kind_root _ _ _ _ _ _ V i Hi); auto. }
  right.
  destruct (inv_tree _ _ _ _ _ _ V i Hi Di') as (t & T1 & T2 & T3).
  set (N := Z.to_nat (maxn s1)).
  assert (Dp : deep ch N i).
  { apply (deep_walk (nmof s)); auto. intros r j Hr. assert (Z : walk (nmof s) ch 0 (p ++ r) = Some j) by (rewrite walk_app, W; auto).
    apply (walk_length (nmof s) ch L) in Z; auto; [|apply (v_root _ _ _ _ _ _ V)|intros x y Hy; apply (v_sub _ _ _ _ _ _ V) in Hy; tauto]. rewrite app_length in Z.
    pose proof (range_length L (maxn s1) (v_nodup _ _ _ _ _ _ V1) (v_range _ _ _ _ _ _ V1)) as Z2. unfold zlen in Z2. unfold N. lia. }
  assert (Ni : NoDup (i :: sub ch N i)).
  { constructor; [|eapply (sub_nodup (nmof s)); eauto]. intros Z. apply (sub_walk (nmof s)) in Z as (r & Z1 & _ & Z3); auto. apply (walk_acyclic (nmof s) ch 0 Dd Oo Nn p) in Z3; auto. }
  assert (DS : forall x, In x (i :: sub ch N i) <-> exists r k, view s ch (p ++ r) = Some (x, k)).
  { intros x. split.
    - intros [<-|Hx]; [exists [], 1; rewrite app_nil_r; apply view_Some; auto|]. apply (sub_walk (nmof s)) in Hx as (r & _ & _ & Hr); auto. exists r, (d_kind (n_st s x)). apply view_Some. rewrite walk_app, W. auto.
    - intros (r & k & Hx). apply view_Some in Hx as [Hx _]. rewrite walk_app, W in Hx. destruct r as [|n r]; [cbn in Hx; injection Hx as ->; left; auto|]. right. apply (sub_walk (nmof s)); auto. exists (n :: r). split; [discriminate|]. split; auto.
      assert (Z : walk (nmof s) ch 0 (p ++ n :: r) = Some x) by (rewrite walk_app, W; auto).
      apply (walk_length (nmof s) ch L) in Z; auto; [|apply (v_root _ _ _ _ _ _ V)|intros a b Hb; apply (v_sub _ _ _ _ _ _ V) in Hb; tauto]. rewrite app_length in Z.
      pose proof (range_length L (maxn s1) (v_nodup _ _ _ _ _ _ V1) (v_range _ _ _ _ _ _ V1)) as Z2. unfold zlen in Z2. unfold N. lia. }
  (* the state before the last removal *)
  assert (Mid : exists s2 ch2 L2, (match d_child (n_st s1 i) with None => Done s1 tt | Some c => if c =? 0 then Done s1 tt else rm_visit per cap (S N) s1 i end) = Done s2 tt /\
     Inv (fun x => x = i) s2 ch2 L2 /\ cleared s ch L (sub ch N i) [i] s2 ch2 L2).
  { rewrite q2, (h_child _ _ _ T1). destruct t as [|c tl x tr]; cbn [rid].
    - exists s1, ch, L. split; auto. split; [eapply inv_weaken; [exact V1|cbn; tauto]|]. cbn in T3. assert (S0 : sub ch N i = []) by (destruct N; cbn; auto; rewrite <- T3; auto). rewrite S0. constructor; cbn; auto; try tauto.
      + intros y [[]|[<-|[]]]; auto. + exists []. rewrite app_nil_r. auto. + exists []. rewrite app_nil_r. auto. + rewrite q2. auto.
    - assert (Hx : In x (ch i)) by (rewrite <- T3; cbn; apply in_or_app; right; left; auto). assert (x <> 0) by (intros ->; eapply Nn; eauto). replace (x =? 0) with false by lia.
      destruct (rm_visit_ok N none s1 ch L i V1 Hi Di Dp Ni) as (s2 & ch2 & L2 & E2 & V2 & [c1 c2 c3 (F & c4 & c4') (G & c5 & c5') c6 c7 c8]); [auto|]. exists s2, ch2, L2. split; auto. split; [eapply inv_weaken; [exact V2|cbn; tauto]|].
      constructor; auto; try (intros; rewrite ?c6, ?c7; auto; fail).
      + exists F. rewrite c4, q4. auto. + exists G. rewrite c5, q6. unfold dirat in *. rewrite q2 in c5'. auto. + intros y. rewrite <- q2. auto. }
  destruct Mid as (s2 & ch2 & L2 & -> & V2 & [c1 c2 c3 (F & c4 & c4') (G & c5 & c5') c6 c7 c8]). cbn [nbind].
  assert (Nm2 : forall x, nmof s2 x = nmof s x) by (intros x; apply c8).
  assert (Wk : forall x, ~ below p x \/ x = p -> walk (nmof s2) ch2 0 x = walk (nmof s) ch 0 x).
  { intros x Hx. apply walk_ext. intros r b Hb (n & r' & Ex). split; [|intros; apply Nm2]. assert (Nb : ~ In b (i :: sub ch N i)).
    { intros Z. apply DS in Z as (r2 & k & Z). apply view_Some in Z as [Z _]. assert (r = p ++ r2) by (eapply walk_inj; eauto). subst r. destruct Hx as [Hx|Hx].
      - apply Hx. rewrite Ex. exists (r2 ++ n :: r'). rewrite <- app_assoc. auto.
      - rewrite Ex in Hx. rewrite <- app_assoc in Hx. apply (f_equal (@length _)) in Hx. rewrite !app_length in Hx. cbn in Hx. lia. }
    apply c3; [intros Z; apply Nb; right; auto|intros [<-|[]]; apply Nb; left; auto]. }
  assert (W2 : walk (nmof s2) ch2 0 p = Some i) by (rewrite Wk; auto).
  destruct (remove_ok upper per cap (fun x => x = i) s2 ch2 L2 p V2 C) as [(s3 & _ & _ & _ & B)|(s3 & ch3 & i3 & k3 & E3 & V3 & _ & Vi & _ & _ & Cut & Fr & Lg)].
  { intros x ->. auto. }
  { exfalso. destruct B as [B|[[_ B]|[B|(j & _ & B & B2)]]].
    - apply NB. destruct B as (r & n & r' & j & Ex & Hj). exists r, n, r', j. split; auto. apply view_Some in Hj as [Hj1 Hj2]. rewrite Wk in Hj1. { apply view_Some. split; auto. rewrite Hj2. apply c8. }
      left. intros (z & Ez). pose proof (f_equal (@length _) Ex) as Q1. pose proof (f_equal (@length _) Ez) as Q2. rewrite app_length in Q1, Q2. cbn in Q1. lia.
    - apply view_None in B. congruence.
    - auto.
    - apply view_Some in B as [B _]. rewrite W2 in B. injection B as <-. apply B2. apply c2. right. left. auto. }
  apply view_Some in Vi as [Vi Vk]. rewrite W2 in Vi. injection Vi as <-. rewrite (proj2 (c8 i)), Ki in Vk. subst k3. cbn in Lg. rewrite app_nil_r in Lg.
  exists s3, ch3, (without L2 [i]), i, (F ++ [i]), G. split; auto. split; auto. split; auto. split; [apply view_Some; auto|].
  assert (PF : Permutation (F ++ [i]) (i :: sub ch N i)) by (etransitivity; [apply Permutation_app_comm|]; cbn; auto).
  split; [|split; [rewrite Fr, c4, <- app_assoc; auto|split; [eapply Permutation_NoDup; [symmetry; exact PF|auto]|split; [|split; [rewrite Lg, c5; auto|split]]]]].
  - destruct Cut as [Cut1 Cut2]. split; auto. intros x Hx. rewrite Cut2 by auto. eapply view_eq; eauto. intros y _. apply c8.
  - intros x. rewrite <- DS. split; apply Permutation_in; auto. symmetry. auto.
  - eapply Permutation_NoDup; [symmetry; exact c5'|]. apply NoDup_filter. inversion Ni; auto.
  - intros x. assert (Z : In x G <-> In x (sub ch N i) /\ dirat s x = false).
    { split; intros Hx; [apply (Permutation_in _ c5') in Hx; apply filter_In in Hx as [Hx Hy]; split; auto; destruct (dirat s x); auto; discriminate|].
      apply (Permutation_in _ (Permutation_sym c5')). apply filter_In. destruct Hx as [Hx Hy]. rewrite Hy. auto. }
    rewrite Z. split.
    + intros [Z1 Z2]. assert (Z3 : In x (i :: sub ch N i)) by (right; auto). apply DS in Z3 as (r & k & Z3). exists r. pose proof (view_live _ _ _ _ _ _ _ _ _ V Z3) as Z4. apply view_Some in Z3 as [Z3 Z5]. apply view_Some. split; auto. symmetry. eapply inv_notdir; eauto.
    + intros (r & Z1). assert (Z2 : In x (i :: sub ch N i)) by (apply DS; eauto). apply view_Some in Z1 as [_ Z1]. assert (dirat s x = false) by (unfold dirat; rewrite <- Z1; auto). destruct Z2 as [<-|Z2]; auto. congruence.
Qed.
End Rm.
