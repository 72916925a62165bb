(** C20-C24: the namespace of a compound file *)
From Coq Require Import ZArith List Bool Lia Sorting.Permutation Sorting.Sorted.
Import ListNotations.
From Verif Require Import Base BaseFacts Codec LRUModel RBModel RBSpec RBTree RBInsert RBLink NsModel NsSpec NsPath NsInv NsFind NsChange NsSteps NsTree NsMove NsRun NsLegal.
Open Scope Z_scope.
Notation length := List.length.

(** [s] stores the tree of names [m]. *)
Definition stores (upper : list Z -> list Z) (per : Z) (s : ns) (m : pmap) : Prop :=
  exists ch L, Inv upper per (fun _ => False) s ch L /\ forall p, view s ch p = m p.

Lemma looks_ext : forall m m' p r, (forall x, m x = m' x) -> looks m p r -> looks m' p r.
Proof.
  intros m m' p r E H. assert (B : blocked m p <-> blocked m' p) by (split; intros (q & n & t & i & Q & H1); exists q, n, t, i; split; auto; congruence).
  destruct H; [constructor; tauto|]. rewrite E. constructor. tauto.
Qed.
Lemma creates_ext : forall f m m1 m' m1' p k o, (forall x, m x = m1 x) -> (forall x, m' x = m1' x) -> creates f m p k o m' -> creates f m1 p k o m1'.
Proof.
  intros f m m1 m' m1' p k o E E' H. assert (Sm : same_map m m' -> same_map m1 m1') by (intros S x; rewrite <- E', <- E; auto).
  destruct H; try (match goal with A : same_map _ _ |- _ => specialize (Sm A) end); try (match goal with A : looks _ _ _ |- _ => apply (looks_ext _ _ _ _ E) in A end).
  - apply C_block; auto.
  - eapply C_exists; eauto.
  - eapply C_orphan; eauto. congruence.
  - eapply C_name; eauto. rewrite <- E; eauto.
  - eapply C_new; eauto; [rewrite <- E; eauto|intros q' k'; rewrite <- E; auto|]. match goal with A : added_at _ _ _ _ _ |- _ => destruct A as [A1 A2] end. split; [congruence|]. intros x Hx. rewrite <- E', <- E. auto.
Qed.
Lemma makes_ext : forall f m a b r m', makes f m a b r m' -> forall m1 m1', (forall x, m x = m1 x) -> (forall x, m' x = m1' x) -> makes f m1 a b r m1'.
Proof.
  intros f m a b r m' H. induction H; intros q q' E E'.
  - constructor. intros x. rewrite <- E', <- E. auto.
  - eapply K_have; [eapply looks_ext; eauto|auto].
  - apply K_block; [eapply looks_ext; eauto|]. intros x. rewrite <- E', <- E. auto.
  - eapply K_new; [eapply looks_ext; eauto|eapply (creates_ext _ _ _ _ m1); eauto|auto].
  - eapply K_refuse; [eapply looks_ext; eauto|eapply creates_ext; eauto].
Qed.
Lemma step_ext : forall f m m1 m' m1' o v, (forall x, m x = m1 x) -> (forall x, m' x = m1' x) -> spec_step f m o v m' -> spec_step f m1 o v m1'.
Proof.
  intros f m m1 m' m1' o v E E' H. assert (Sm : same_map m m' -> same_map m1 m1') by (intros S x; rewrite <- E', <- E; auto).
  assert (Lk : forall p r, looks m p r -> looks m1 p r) by (intros; eapply looks_ext; eauto).
  assert (Ct : forall p, cut_at m p m' -> cut_at m1 p m1') by (intros p [C1 C2]; split; intros x; [rewrite <- E'; auto|intros Hx; rewrite <- E', <- E; auto]).
  destruct H; try (match goal with A : same_map _ _ |- _ => specialize (Sm A) end).
  - apply S_find_err; auto.
  - apply S_find; auto.
  - apply S_exists_err; auto.
  - apply S_exists; auto.
  - apply S_list_err; auto. destruct H as [H|[H|(i & H)]]; eauto.
  - eapply S_list; eauto. match goal with A : listing _ _ _ |- _ => destruct A as [A1 A2] end. split; auto. intros n j. rewrite A2. split; intros (x & Hx); exists x; congruence.
  - apply S_create. eapply creates_ext; eauto.
  - apply S_remove_err; auto. destruct H as [H|[H|[H|(n & i & x & H1 & H2)]]]; auto. right; right; right. exists n, i, x. rewrite <- !E. auto.
  - eapply S_remove; eauto. intros n. rewrite <- E. auto.
  - eapply S_makedirs; [eapply makes_ext; eauto|eapply looks_ext; eauto].
  - apply S_makedirs_err. eapply makes_ext; eauto.
  - apply S_rmtree_err; auto. destruct H as [H|(i & H)]; eauto.
  - apply S_rmtree_none; auto.
  - eapply S_rmtree; eauto.
  - apply S_touch_err; auto. destruct H as [H|(i & H)]; eauto.
  - apply S_touch_none; auto.
  - eapply S_touch_have; eauto. rewrite <- E. auto.
  - eapply S_touch_new; eauto; [rewrite <- E; auto|eapply creates_ext; eauto].
  - apply S_move_src; auto. destruct H; auto.
  - eapply S_move_dst; eauto. rewrite <- E. destruct H1 as [H1|[H1|[(x & H1)|[H1 H3]]]]; eauto 6.
  - eapply S_move; eauto; [rewrite <- E; eauto|]. match goal with A : moved _ _ _ _ |- _ => destruct A as (A1 & A2 & A3) end. split; [|split]; intros x; [rewrite <- E', <- E; auto|intros; rewrite <- E'; auto|intros; rewrite <- E', <- E; auto].
Qed.
Lemma spec_run_ext : forall m ops vs m', spec_run m ops vs m' -> forall m1, (forall x, m x = m1 x) -> exists m1', spec_run m1 ops vs m1' /\ forall x, m' x = m1' x.
Proof.
  intros m ops vs m' H. induction H as [m|m o v m1 ops vs m' H1 H2 IH]; intros q E; [exists q; split; auto; constructor|].
  destruct (IH m1) as (x & X1 & X2); [auto|]. exists x. split; auto. econstructor; eauto. eapply step_ext; eauto.
Qed.

(** ** C20: every history of namespace calls on a new file is a history of the tree of names

    [upper] any upper-casing, [per] the number of entries in a directory sector, [cap] the capacity of the
    cache of listings, [N] any set of names no two of which differ only by case. The exceptions raised by
    the calls are observations ([VErr]); what they leave behind is covered too. [None]: an exception from
    inside the tree code, see C20_after_removals_refuted; it needs an earlier removal or move. *)
Theorem C20_namespace_partial : forall upper per cap (N : name -> Prop) ops,
  0 < per -> separated upper N -> Forall (op_ok cap N) ops ->
  match ns_run upper per cap new_ns ops with
  | (vs, Some s) => exists m, spec_run empty_map ops vs m /\ stores upper per s m
  | (vs, None) => exists pre o post m, ops = pre ++ o :: post /\ spec_run empty_map pre vs m /\ existsb (fun o => negb (grows o)) (pre ++ [o]) = true
  end.
Proof.
  intros upper per cap N ops Hp Sp F. pose proof (new_inv upper per Hp) as V.
  assert (G : legal_run upper cap (view new_ns (fun _ => [])) ops).
  { eapply ops_legal; eauto. intros p H. rewrite new_view in H. destruct p; [constructor|destruct H; reflexivity]. }
  pose proof (run_ok upper per cap ops _ _ _ V G) as R. destruct (ns_run upper per cap new_ns ops) as [vs [s|]].
  - destruct R as (ch & L & V' & R). destruct (spec_run_ext _ _ _ _ R empty_map new_view) as (m & R1 & R2). exists m. split; auto. exists ch, L. auto.
  - destruct R as (pre & o & post & m & E & R & B). destruct (spec_run_ext _ _ _ _ R empty_map new_view) as (m' & R1 & R2). exists pre, o, post, m'. split; auto. split; auto. apply B. apply new_bal.
Qed.
Print Assumptions C20_namespace_partial.

(** the same from any stored tree, such as that of a file that was opened; names already there count *)
Theorem C20_namespace_any_partial : forall upper per cap (N : name -> Prop) ops s m,
  stores upper per s m -> separated upper N -> names_in N m -> Forall (op_ok cap N) ops ->
  match ns_run upper per cap s ops with
  | (vs, Some s') => exists m', spec_run m ops vs m' /\ stores upper per s' m'
  | (vs, None) => exists pre o post m', ops = pre ++ o :: post /\ spec_run m pre vs m'
  end.
Proof.
  intros upper per cap N ops s m (ch & L & V & E) Sp Nm F.
  assert (G : legal_run upper cap (view s ch) ops). { eapply ops_legal; eauto. intros p H. apply Nm. rewrite <- E. auto. }
  pose proof (run_ok upper per cap ops _ _ _ V G) as R. destruct (ns_run upper per cap s ops) as [vs [s'|]].
  - destruct R as (ch' & L' & V' & R). destruct (spec_run_ext _ _ _ _ R m E) as (m' & R1 & R2). exists m'. split; auto. exists ch', L'. auto.
  - destruct R as (pre & o & post & m0 & Eo & R & B). destruct (spec_run_ext _ _ _ _ R m E) as (m' & R1 & R2). exists pre, o, post, m'. auto.
Qed.
Print Assumptions C20_namespace_any_partial.

(** without removals and moves nothing ever fails inside the tree code *)
Theorem C20_growing_partial : forall upper per cap (N : name -> Prop) ops,
  0 < per -> separated upper N -> Forall (op_ok cap N) ops -> forallb grows ops = true ->
  exists vs s m, ns_run upper per cap new_ns ops = (vs, Some s) /\ spec_run empty_map ops vs m /\ stores upper per s m.
Proof.
  intros upper per cap N ops Hp Sp F G. pose proof (C20_namespace_partial upper per cap N ops Hp Sp F) as R. destruct (ns_run upper per cap new_ns ops) as [vs [s|]].
  - destruct R as (m & R & S). exists vs, s, m. auto.
  - exfalso. destruct R as (pre & o & post & m & -> & _ & H). apply existsb_exists in H as (x & Hx & Q). rewrite forallb_forall in G. rewrite (G x) in Q; [discriminate|]. rewrite in_app_iff in *. cbn in *. tauto.
Qed.
Print Assumptions C20_growing_partial.

(** a case: ASCII upper-casing, names a to d, and a history with every kind of call *)
Definition up (l : list Z) : list Z := map (fun c => if (97 <=? c) && (c <=? 122) then c - 32 else c) l.
Definition na : name := [97]. Definition nb : name := [98]. Definition nc : name := [99]. Definition nd : name := [100].
Definition abcd (n : name) : Prop := In n [na; nb; nc; nd].
Definition tour : list op :=
  [OMakedirs [na; nb]; OTouch [na] nc; OMove [na] [nd]; OFind [nd; nc]; OFind [na]; OExists [nd; nb]; OList [nd]; OCreate [nd; nc; na] 2; ORemove [nd]; ORmtree [nd]; OList []].
Lemma abcd_separated : separated up abcd.
Proof.
  intros x y Hx Hy [_ H]. unfold abcd in *. cbn in Hx, Hy. repeat (destruct Hx as [<- |Hx]; [repeat (destruct Hy as [<- |Hy]; [cbn in H; try reflexivity; discriminate|]); destruct Hy|]). destruct Hx.
Qed.
Lemma abcd_clean : forall p, Forall abcd p -> clean p.
Proof. intros p H. eapply Forall_impl; [|exact H]. intros n Hn. cbn in Hn. repeat (destruct Hn as [<- |Hn]; [split; [discriminate|cbn; lia]|]). destruct Hn. Qed.
Ltac abcds := repeat (apply Forall_cons; [unfold abcd; cbn; auto 6|]); apply Forall_nil.
Lemma tour_ok : Forall (op_ok 513 abcd) tour.
Proof.
  unfold tour. repeat (apply Forall_cons; [cbn [op_ok app target last]; repeat match goal with |- _ /\ _ => split end|]); try apply Forall_nil;
    try (unfold abcd; cbn; tauto); try (split; [discriminate|cbn; lia]); auto; try discriminate.
  - cbn. intros [H|[]]. discriminate.
  - intros (r & H). discriminate.
  - cbn. lia.
Qed.
Example C20_case : Forall (op_ok 513 abcd) tour /\ separated up abcd /\
  fst (ns_run up 4 513 new_ns tour) =
    [VId (Some 5); VId (Some 6); VId (Some 4); VId (Some 6); VId None; VBool true; VList [([98], 5); ([99], 6)]; VErr ValueError; VErr ValueError; VUnit; VList []].
Proof. split; [apply tour_ok|]. split; [apply abcd_separated|]. vm_compute. reflexivity. Qed.

(** C20 is false of the code: a doubled '/' in the path hides the existing entry from create *)
Theorem C20_doubled_slash_refuted : exists s s' i j, fst (ns_run up 4 513 new_ns [OCreate [na] 1; OCreate [na; nb] 2]) = [VId (Some i); VId (Some j)] /\
  snd (ns_run up 4 513 new_ns [OCreate [na] 1; OCreate [na; nb] 2]) = Some s /\
  create_dir_entry up 4 513 s (47 :: na ++ [47; 47] ++ nb) 2 = Done s' 6 /\ j <> 6 /\
  fst (ns_run up 4 513 s' [OFind [na; nb]]) = [VId (Some 6)].
Proof.
  set (r := ns_run up 4 513 new_ns [OCreate [na] 1; OCreate [na; nb] 2]).
  assert (H : match snd r with Some s => match create_dir_entry up 4 513 s (47 :: na ++ [47; 47] ++ nb) 2 with
     Done s' i => (i =? 6) && match fst (ns_run up 4 513 s' [OFind [na; nb]]) with [VId (Some k)] => k =? 6 | _ => false end | _ => false end | None => false end = true) by (vm_compute; reflexivity).
  assert (F : fst r = [VId (Some 4); VId (Some 5)]) by (vm_compute; reflexivity).
  clearbody r. destruct r as [r1 [s|]]; cbn [fst snd] in *; [|discriminate]. destruct (create_dir_entry up 4 513 s (47 :: na ++ [47; 47] ++ nb) 2) as [s' i|s' e|e] eqn:E; [|discriminate|discriminate].
  apply andb_prop in H as [H1 H2]. apply Z.eqb_eq in H1. subst i. exists s, s', 4, 5. split; [exact F|]. split; [reflexivity|]. split; [exact E|]. split; [lia|]. clear E. revert H2. generalize (fst (ns_run up 4 513 s' [OFind [na; nb]])). intros l H2.
  destruct l as [|[[k|]| | | |] [|]]; try discriminate. apply Z.eqb_eq in H2. subst k. reflexivity.
Qed.
Print Assumptions C20_doubled_slash_refuted.

(** and after this history of creations and removals in the root, each of which succeeds, one more
    creation fails inside insert, which by then has set child_id to None: the root has lost its children *)
Definition ch1 (k : Z) : name := [100 + k].
Definition churn : list op := map (fun x : bool * Z => if fst x then OCreate [ch1 (snd x)] 2 else ORemove [ch1 (snd x)])
  [(true,17);(true,16);(true,15);(true,14);(false,17);(true,13);(true,12);(true,11);(true,8);(true,4);(true,9);(false,13);(false,8);(true,7);(true,6);(false,6);(false,15);
   (true,2);(true,13);(true,6);(false,13);(false,6);(true,15);(true,10);(false,7);(true,3);(false,16);(true,7);(false,4);(false,2);(true,16);(false,12);(false,16);(true,1)].
Theorem C20_after_removals_refuted : 
  (exists s, snd (ns_run up 4 513 new_ns churn) = Some s /\ Forall (fun v => match v with VErr _ => False | _ => True end) (fst (ns_run up 4 513 new_ns churn)) /\
    ns_step up 4 513 s (OFind [ch1 5]) <> Broken ValueError /\ create_dir_entry up 4 513 s (text_of [ch1 5]) 2 = Broken TypeError) /\
  exists N, separated up N /\ Forall (op_ok 513 N) (churn ++ [OCreate [ch1 5] 2]).
Proof.
  split.
  - set (r := ns_run up 4 513 new_ns churn).
    assert (H : match snd r with Some s => match create_dir_entry up 4 513 s (text_of [ch1 5]) 2 with Broken TypeError => true | _ => false end && match ns_step up 4 513 s (OFind [ch1 5]) with Done _ (VId None) => true | _ => false end | None => false end = true) by (vm_compute; reflexivity).
    assert (F : forallb (fun v => match v with VErr _ => false | _ => true end) (fst r) = true) by (vm_compute; reflexivity).
    clearbody r. destruct (snd r) as [s|]; [|discriminate]. exists s. split; [reflexivity|]. split; [apply Forall_forall; intros v Hv; rewrite forallb_forall in F; specialize (F v Hv); destruct v; auto; discriminate|].
    apply andb_prop in H as [H1 H2]. split; [intros Q; rewrite Q in H2; discriminate|]. destruct (create_dir_entry up 4 513 s (text_of [ch1 5]) 2) as [| |[]]; try discriminate. auto.
  - exists (fun n => exists k, 1 <= k <= 17 /\ n = ch1 k). split.
    + intros x y (k & Hk & ->) (l & Hl & ->) [_ H]. unfold ch1, up in *. cbn [map] in H. replace ((97 <=? 100 + k) && (100 + k <=? 122)) with true in H by (symmetry; apply andb_true_intro; split; apply Z.leb_le; lia).
      replace ((97 <=? 100 + l) && (100 + l <=? 122)) with true in H by (symmetry; apply andb_true_intro; split; apply Z.leb_le; lia). assert (Q : 100 + k - 32 = 100 + l - 32) by congruence. assert (k = l) by lia. subst. auto.
    + apply Forall_app. split.
      * unfold churn. apply Forall_forall. intros o Ho. apply in_map_iff in Ho as ((b, k) & <- & Hk). assert (Rk : 1 <= k <= 17) by (cbn in Hk; repeat (destruct Hk as [Q|Hk]; [injection Q as _ <-; lia|]); destruct Hk).
        assert (Ck : clean [ch1 k]) by (constructor; [split; [discriminate|unfold ch1; intros [Q|[]]; lia]|constructor]). destruct b; cbn; auto. split; auto. split; [constructor; eauto|auto].
      * constructor; [|constructor]. cbn. split; [constructor; [split; [discriminate|cbn; lia]|constructor]|]. split; auto. constructor; [exists 5; split; [lia|auto]|constructor].
Qed.
Print Assumptions C20_after_removals_refuted.

(** ** C21: move

    [move_legal]: clean paths, the destination not below the source, a destination name the format can
    hold and unlike its siblings, no deeper than the capacity of the cache of listings. *)
Theorem C21_move_partial : forall upper per cap src dst s m,
  stores upper per s m -> move_legal upper cap m src dst ->
  match move upper per cap s (text_of src) (text_of dst) with
  | Done s' i => exists k m', src <> [] /\ m src = Some (i, k) /\ m (target src dst) = None /\ moved m src (target src dst) m' /\ stores upper per s' m'
  | Fail s' e => e = ValueError /\ stores upper per s' m
  | Broken e => True
  end.
Proof.
  intros upper per cap src dst s m (ch & L & V & E) G.
  assert (G' : move_legal upper cap (view s ch) src dst). { destruct G. constructor; auto. intros x Hx. apply ml_case. rewrite <- E. auto. }
  pose proof (move_ok upper per cap src dst s ch L V G') as K. destruct (move upper per cap s (text_of src) (text_of dst)) as [s' i|s' e|e]; auto.
  - destruct K as (ch' & V' & K & _). inversion K as [| | | | | | | | | | | | | | | | | | | |? ? ? ? k ? ? ? K1 K2 K3 K4 K5 K6 K7]; subst. exists k, (view s' ch'). apply (proj1 (looks_Ok _ _ _)) in K1 as [_ K1]. apply (proj1 (looks_Ok _ _ _)) in K4 as [_ K4]. rewrite <- !E. split; auto. split; auto. split; [symmetry; exact K4|]. split; [|exists ch', L; auto].
    destruct K7 as (A1 & A2 & A3). split; [intros r; rewrite <- E; apply A1|split; [intros x Hx Hx'; apply A2; auto|intros x Hx Hx'; rewrite <- E; apply A3; auto]].
  - destruct K as (V' & K & O). split; [inversion K; auto|]. exists ch, L. split; auto. intros p. rewrite (only_cache_view _ _ ch O). auto.
Qed.
Print Assumptions C21_move_partial.

(** where it can fail inside the tree code: the destination folder has lost its balance by earlier
    removals, or is the folder the entry was taken from *)
Theorem C21_move_done_partial : forall upper per cap src dst s ch L,
  Inv upper per (fun _ => False) s ch L -> Bal s L -> move_legal upper cap (view s ch) src dst -> removelast src <> removelast (target src dst) ->
  forall e, move upper per cap s (text_of src) (text_of dst) <> Broken e.
Proof.
  intros upper per cap src dst s ch L V B G Ne e Q. pose proof (move_ok upper per cap src dst s ch L V G) as K. rewrite Q in K. destruct K as [K|(i & j & K1 & K2 & K3)]; [tauto|].
  apply K3. apply B; auto. apply (view_live _ _ _ _ _ _ _ _ _ V K1).
Qed.
Print Assumptions C21_move_done_partial.

Definition made : ns := match snd (ns_run up 4 513 new_ns [OMakedirs [na; nb]]) with Some s => s | None => new_ns end.
Example C21_case : exists m, stores up 4 made m /\ move_legal up 513 m [na; nb] [nc] /\ match move up 4 513 made (text_of [na; nb]) (text_of [nc]) with Done _ i => i = 5 | _ => False end.
Proof.
  pose proof (C20_growing_partial up 4 513 abcd [OMakedirs [na; nb]] ltac:(lia) abcd_separated) as K. destruct K as (vs & s & m & E & R & S).
  - constructor; [|constructor]. cbn. split; [apply abcd_clean; abcds|abcds].
  - reflexivity.
  - exists m. split; [unfold made; rewrite E; auto|]. split; [|vm_compute; reflexivity].
    assert (Nm : names_in abcd m). { inversion R as [|? ? ? ? ? ? ? R1 R2]; subst. inversion R2; subst. apply (step_names up 513 abcd _ _ _ _ R1); [cbn; split; [apply abcd_clean; abcds|abcds]|]. intros p Hp. destruct p; [constructor|destruct Hp; reflexivity]. }
    apply (op_legal up 513 abcd m (OMove [na; nb] [nc]) abcd_separated); auto. cbn. repeat match goal with |- _ /\ _ => split end; try (apply abcd_clean; abcds); try abcds; auto; [intros (r & H); discriminate|vm_compute; lia].
Qed.

(** C21 is false of the code. Moving an entry into its own subtree succeeds and loses the subtree: *)
Theorem C21_into_itself_refuted : fst (ns_run up 4 513 new_ns [OMakedirs [na; nb]; OMove [na] [na; nb; nc]; OFind [na]; OFind [na; nb; nc]; OList []]) =
  [VId (Some 5); VId (Some 4); VId None; VId None; VList []].
Proof. vm_compute. reflexivity. Qed.
Print Assumptions C21_into_itself_refuted.
(** a new name the format cannot hold makes it fail after the entry has been taken out: *)
Theorem C21_long_name_refuted : fst (ns_run up 4 513 new_ns [OMakedirs [na; nb]; OMove [na] [repeat 97 33]; OFind [na]; OList []]) =
  [VId (Some 5); VErr AssertionError; VId None; VList []].
Proof. vm_compute. reflexivity. Qed.
Print Assumptions C21_long_name_refuted.
(** a destination deeper than the cache of listings (here of capacity 2) fails after the move was done: *)
Theorem C21_depth_refuted : fst (ns_run up 4 2 new_ns [OMakedirs [na; nb; nc]; OCreate [nd] 2; OMove [nd] [na; nb; nc; nd]; OFind [nd]; OFind [na; nb; nc; nd]]) =
  [VId (Some 6); VId (Some 7); VErr KeyError; VId None; VId (Some 7)].
Proof. vm_compute. reflexivity. Qed.
Print Assumptions C21_depth_refuted.

(** ** C22: rmtree of anything but the root: exactly the subtree goes, and exactly its ids and chains are released *)
Theorem C22_rmtree_partial : forall upper per cap s m p, stores upper per s m -> clean p -> p <> [] ->
  match rmtree upper per cap s (text_of p) with
  | Done s' _ => exists i m' F G, m p = Some (i, 1) /\ cut_at m p m' /\ stores upper per s' m' /\
      n_free s' = n_free s ++ F /\ NoDup F /\ (forall x, In x F <-> exists r k, m (p ++ r) = Some (x, k)) /\
      n_log s' = n_log s ++ G /\ NoDup G /\ (forall x, In x G <-> exists r, m (p ++ r) = Some (x, 2))
  | Fail s' e => stores upper per s' m /\ n_free s' = n_free s /\ n_log s' = n_log s /\
      ((e = ValueError /\ (blocked m p \/ exists i, m p = Some (i, 2))) \/ (e = GenericError /\ m p = None))
  | Broken e => False
  end.
Proof.
  intros upper per cap s m p (ch & L & V & E) C Np.
  destruct (rmtree_ok upper per cap s ch L p V C Np) as [(s' & e & -> & V' & O & H)|(s' & ch' & L' & i & F & G & -> & V' & NB & Vp & Cut & F1 & F2 & F3 & G1 & G2 & G3)].
  - destruct (only_cache_nm _ _ O) as (_ & _ & _ & Fr & _ & Lo). split; [exists ch, L; split; auto; intros x; rewrite (only_cache_view _ _ ch O); auto|]. split; auto. split; auto.
    assert (B : blocked (view s ch) p -> blocked m p) by (intros (q & n & r & i & Q & Z); exists q, n, r, i; rewrite <- E; auto).
    destruct H as [[H ->]|[(H & H1 & ->)|(H & -> & i & H1)]]; try rewrite E in H1; [auto|auto|left]. split; auto. right. eauto.
  - exists i, (view s' ch'), F, G. rewrite <- E. split; auto. split. { destruct Cut as [C1 C2]. split; auto. intros x Hx. rewrite <- E. auto. } split; [exists ch', L'; auto|]. do 2 (split; [auto|]).
    split; [intros x; rewrite F3; split; intros (r & k & Q); exists r, k; [rewrite <- E|rewrite E]; auto|]. do 2 (split; [auto|]). intros x. rewrite G3. split; intros (r & Q); exists r; [rewrite <- E|rewrite E]; auto.
Qed.
Print Assumptions C22_rmtree_partial.
Example C22_case : exists m, stores up 4 made m /\ clean [na] /\ match rmtree up 4 513 made (text_of [na]) with Done s' _ => n_free s' = n_free made ++ [5; 4] | _ => False end.
Proof.
  pose proof (C20_growing_partial up 4 513 abcd [OMakedirs [na; nb]] ltac:(lia) abcd_separated) as K. destruct K as (vs & s & m & E & R & S).
  - constructor; [|constructor]. cbn. split; [apply abcd_clean; abcds|abcds].
  - reflexivity.
  - exists m. split; [unfold made; rewrite E; auto|]. split; [apply abcd_clean; abcds|vm_compute; reflexivity].
Qed.
(** C22 is false of the code for the root: everything below it is released, then the call fails, and
    afterwards the released entry 4 is still found and still given to a new entry later *)
Theorem C22_root_refuted : fst (ns_run up 4 513 new_ns [OMakedirs [na; nb]; ORmtree []; OFind [na]; OList []]) = [VId (Some 5); VErr ValueError; VId (Some 4); VList [(na, 4)]] /\
  (exists s, snd (ns_run up 4 513 new_ns [OMakedirs [na; nb]; ORmtree []]) = Some s /\ n_free s = [6; 7; 5; 4] /\ d_child (n_st s 0) = None).
Proof.
  split; [vm_compute; reflexivity|]. set (r := snd (ns_run up 4 513 new_ns [OMakedirs [na; nb]; ORmtree []])).
  assert (H : match r with Some s => zlist_eqb (n_free s) [6; 7; 5; 4] && match d_child (n_st s 0) with None => true | _ => false end | None => false end = true) by (vm_compute; reflexivity).
  clearbody r. destruct r as [s|]; [|discriminate]. apply andb_prop in H as [H1 H2]. apply zlist_eqb_spec in H1. exists s. split; [reflexivity|]. split; auto. destruct (d_child (n_st s 0)); [discriminate|auto].
Qed.
Print Assumptions C22_root_refuted.

(** ** C23: siblings are in strict order and every childless entry can be removed, as long as no two names
    that differ only by case are given *)
Theorem C23_order_partial : forall upper per s m, stores upper per s m -> forall p i k, m p = Some (i, k) -> is_storage k ->
  exists l, has_children (n_st s) i l /\ in_order upper (n_st s) l /\ forall j, In j l <-> exists n x, m (p ++ [n]) = Some (j, x).
Proof.
  intros upper per s m (ch & L & V & E) p i k Hp Hk. rewrite <- E in Hp. pose proof (view_live _ _ _ _ _ _ _ _ _ V Hp) as Li. apply view_Some in Hp as [Wp ->].
  assert (Di : dirat s i = true) by (unfold dirat, isdir; destruct Hk as [->| ->]; reflexivity).
  destruct (inv_tree _ _ _ _ _ _ V i Li Di) as (t & T1 & T2 & T3). exists (ids t).
  assert (Pos : forall j, In j (ids t) -> 0 <= j) by (intros j Hj; rewrite T3 in Hj; apply (v_sub _ _ _ _ _ _ V) in Hj as [Hj _]; apply (v_range _ _ _ _ _ _ V) in Hj; lia).
  split; [apply holds_children; auto; apply (v_range _ _ _ _ _ _ V) in Li; lia|]. split; [apply in_order_iff; auto|].
  pose proof (inv_distinct _ _ _ _ _ _ V) as Dd. rewrite T3. intros j. split.
  - intros Hj. exists (nmof s j), (d_kind (n_st s j)). rewrite <- E. apply view_Some. split; auto. apply walk_snoc; auto. exists i. auto.
  - intros (n & x & Q). rewrite <- E in Q. apply view_Some in Q as [Q _]. apply (proj1 (walk_snoc _ _ _ _ _ _ Dd)) in Q as (b & Wb & Hb & _). congruence.
Qed.
Print Assumptions C23_order_partial.
Theorem C23_removable_partial : forall upper per cap s m p i k, stores upper per s m -> clean p -> p <> [] -> m p = Some (i, k) -> (forall n, m (p ++ [n]) = None) ->
  exists s' m', remove upper per cap s (text_of p) = Done s' tt /\ cut_at m p m' /\ stores upper per s' m'.
Proof.
  intros upper per cap s m p i k (ch & L & V & E) C Np Hp Hn. rewrite <- E in Hp.
  destruct (remove_ok upper per cap (fun _ => False) s ch L p V C) as [(s' & -> & V' & O & H)|(s' & ch' & i' & k' & -> & V' & NB & Vp & _ & Ci & Cut & _)]; [tauto| |].
  - exfalso. destruct H as [H|[[_ H]|[H|(j & H1 & H2 & H3)]]]; [|congruence|tauto|].
    + eapply (there_free _ _ _ _ _ _ _ V); [|exact H]. rewrite Hp. discriminate.
    + destruct (ch j) as [|x l] eqn:Cj; [tauto|]. specialize (Hn (nmof s x)). rewrite <- E in Hn. apply view_None in Hn. apply view_Some in H2 as [H2 _].
      assert (Q : walk (nmof s) ch 0 (p ++ [nmof s x]) = Some x). { apply walk_snoc; [apply (inv_distinct _ _ _ _ _ _ V)|]. exists j. rewrite Cj. cbn. auto. } congruence.
  - exists s', (view s' ch'). split; auto. split; [|eexists; eexists; split; [exact V'|auto]]. destruct Cut as [C1 C2]. split; auto. intros x Hx. rewrite <- E. auto.
Qed.
Print Assumptions C23_removable_partial.
Lemma spec_run_app : forall m a b vs m', spec_run m (a ++ b) vs m' -> exists v1 v2 m1, vs = v1 ++ v2 /\ spec_run m a v1 m1 /\ spec_run m1 b v2 m' /\ length v1 = length a.
Proof.
  intros m a. revert m. induction a as [|o a IH]; intros m b vs m' H; [exists [], vs, m; repeat split; auto; constructor|].
  inversion H as [|? ? ? ? ? ? ? Q1 Q2]; subst. apply IH in Q2 as (v1 & v2 & m1' & -> & P1 & P2 & P3). exists (v :: v1), v2, m1'. repeat split; auto; [econstructor; eauto|cbn; auto].
Qed.
Definition steps : list op := [OMakedirs [na; nb]] ++ [OList [na; nb]; OFind [na; nb]].
Example C23_case : exists s m i k, stores up 4 s m /\ m [na; nb] = Some (i, k) /\ forall n, m ([na; nb] ++ [n]) = None.
Proof.
  pose proof (C20_growing_partial up 4 513 abcd steps ltac:(lia) abcd_separated) as K. destruct K as (vs & s & m & E & R & S).
  - unfold steps. cbn [app]. assert (Cp : clean [na; nb]) by (apply abcd_clean; abcds). assert (Np : Forall abcd [na; nb]) by abcds.
    apply Forall_cons; [split; auto|]. apply Forall_cons; [exact Cp|]. apply Forall_cons; [exact Cp|]. apply Forall_nil.
  - reflexivity.
  - assert (Ev : vs = [VId (Some 5)] ++ [VList []; VId (Some 5)]) by (change vs with (fst (vs, Some s)); rewrite <- E; vm_compute; reflexivity). clear E. subst vs.
    apply spec_run_app in R as (v1 & v2 & m1 & Q & _ & R & Ln). destruct v1 as [|v [|]]; try discriminate. cbn in Q. injection Q as _ <-.
    inversion R as [|? ? ? ? ? ? ? A1 R1]; subst. inversion R1 as [|? ? ? ? ? ? ? A2 R2]; subst. inversion R2; subst. clear R R1 R2.
    inversion A1 as [| | | | |? ? ? ? ? B1 B2 B3 B4| | | | | | | | | | | | | | |]; subst. inversion A2 as [|? ? ? D1 D2| | | | | | | | | | | | | | | | | | |]; subst.
    exists s, m. apply (proj1 (looks_Ok _ _ _)) in B1 as [_ B1]. exists i, k. split; auto. split; [rewrite D2, B4; auto|]. intros n. rewrite D2, B4. destruct B3 as [_ B3].
    destruct (m1 ([na; nb] ++ [n])) as [[j z]|] eqn:Q; auto. exfalso. apply (B3 n j). eauto.
Qed.

(** C23 is false of the code: a name that differs only by case from a sibling's is accepted, and then the
    first entry cannot be removed any more; the attempt fails inside pop *)
Theorem C23_case_variant_refuted : alike up [97] [65] /\
  fst (ns_run up 4 513 new_ns [OCreate [[97]] 2; OCreate [[65]] 2; OList []]) = [VId (Some 4); VId (Some 5); VList [([97], 4); ([65], 5)]] /\
  ns_run up 4 513 new_ns [OCreate [[97]] 2; OCreate [[65]] 2; ORemove [[97]]] = ([VId (Some 4); VId (Some 5)], None).
Proof. split; [split; reflexivity|]. split; vm_compute; reflexivity. Qed.
Print Assumptions C23_case_variant_refuted.

(** ** C24: path() and find() are inverse, for entries on paths without a name "Root Entry" *)
Theorem C24_path_find_partial : forall upper per cap s m p i k, stores upper per s m -> clean p -> ~ In ROOT_NAME p -> m p = Some (i, k) ->
  exists s', path_of per s i = Ok (text_of p) /\ find per cap s (text_of p) = Done s' (Some i).
Proof.
  intros upper per cap s m p i k (ch & L & V & E) C NR Hp. rewrite <- E in Hp. apply view_Some in Hp as [Wp ->].
  destruct (find_looks upper per cap p s ch L V C) as (s' & _ & _ & _ & [[H _]|(_ & F & _)]).
  - exfalso. inversion H. eapply (there_free _ _ _ _ _ _ _ V); [|eauto]. intros Q. apply view_None in Q. congruence.
  - exists s'. split; [eapply path_ok; eauto|]. rewrite F, Wp. auto.
Qed.
Print Assumptions C24_path_find_partial.
(** every path of a stored tree is clean *)
Theorem C24_clean_partial : forall upper per s m p, stores upper per s m -> m p <> None -> clean p.
Proof.
  intros upper per s m p (ch & L & V & E) H. rewrite <- E in H. destruct (walk (nmof s) ch 0 p) as [i|] eqn:Q; [eapply (walk_clean _ _ _ _ _ _ V); exact Q|]. exfalso. apply H. apply view_None. exact Q.
Qed.
Print Assumptions C24_clean_partial.
Example C24_case : exists s m i k, stores up 4 s m /\ m [na; nb] = Some (i, k) /\ ~ In ROOT_NAME [na; nb] /\ path_of 4 made 5 = Ok [47; 97; 47; 98].
Proof. destruct C23_case as (s & m & i & k & H1 & H2 & _). exists s, m, i, k. split; auto. split; auto. split; [cbn; intuition discriminate|vm_compute; reflexivity]. Qed.

(** C24 is false of the code: below a storage called "Root Entry" path() gives the path of something else *)
Theorem C24_root_name_refuted : exists s s' s'', snd (ns_run up 4 513 new_ns [OCreate [ROOT_NAME] 1; OCreate [ROOT_NAME; na] 2]) = Some s /\
  find 4 513 s (text_of [ROOT_NAME; na]) = Done s' (Some 5) /\ path_of 4 s 5 = Ok (text_of [na]) /\ find 4 513 s (text_of [na]) = Done s'' None.
Proof.
  set (r := snd (ns_run up 4 513 new_ns [OCreate [ROOT_NAME] 1; OCreate [ROOT_NAME; na] 2])).
  assert (H : match r with Some s => match find 4 513 s (text_of [ROOT_NAME; na]) with Done _ (Some v) => v =? 5 | _ => false end &&
    match path_of 4 s 5 with Ok x => zlist_eqb x (text_of [na]) | _ => false end && match find 4 513 s (text_of [na]) with Done _ None => true | _ => false end | None => false end = true) by (vm_compute; reflexivity).
  clearbody r. destruct r as [s|]; [|discriminate]. apply andb_prop in H as [H H3]. apply andb_prop in H as [H1 H2].
  destruct (find 4 513 s (text_of [ROOT_NAME; na])) as [s' [v|]| |] eqn:F1; try discriminate. destruct (path_of 4 s 5) as [x|] eqn:P; try discriminate. apply zlist_eqb_spec in H2. subst x.
  destruct (find 4 513 s (text_of [na])) as [s'' [w|]| |] eqn:F2; try discriminate. exists s, s', s''. split; auto. split; [|auto].
  apply Z.eqb_eq in H1. subst. auto.
Qed.
Print Assumptions C24_root_name_refuted.
