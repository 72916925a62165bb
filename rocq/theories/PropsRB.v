(** C17-C19: the sibling trees of a directory *)
From Verif Require Import Base BaseFacts RBModel RBSpec RBTree RBOrder RBInsert RBPop RBLink.
From Coq Require Import ZArith List Bool Lia Sorting.Permutation Sorting.Sorted.
Import ListNotations.
Open Scope Z_scope.
Notation length := List.length.

(** ** C17: adding a child

    [upper] is any upper-casing. The tree need not be a red-black tree as long as its root is black
    and no red entry is below a red one; if it is a red-black tree it stays one. *)
Theorem C17_add_child : forall upper st self e maxn l,
  has_children st self l -> in_order upper st l -> NoRedRed st (d_child (st self)) false ->
  0 <= e -> e <> self -> ~ In e l -> d_left (st e) = None -> d_right (st e) = None ->
  (forall j, In j l -> ~ alike upper (d_name (st e)) (d_name (st j))) ->
  zlen l < maxn ->
  exists st' l', add_child upper st self e maxn = Ok st' /\
    has_children st' self l' /\ Permutation l' (e :: l) /\ in_order upper st' l' /\
    NoRedRed st' (d_child (st' self)) false /\
    (forall n, RB st (d_child (st self)) false n -> exists m, RB st' (d_child (st' self)) false m) /\
    (forall j, 0 <= j -> d_name (st' j) = d_name (st j) /\ d_kind (st' j) = d_kind (st j)) /\
    (forall j, 0 <= j -> j <> self -> d_child (st' j) = d_child (st j)) /\
    (forall j, 0 <= j -> j <> self -> j <> e -> ~ In j l -> st' j = st j) /\
    d_left (st' self) = d_left (st self) /\ d_right (st' self) = d_right (st self) /\ d_red (st' self) = d_red (st self).
Proof.
  intros upper st self e maxn l H So Nr He Hes Hel El Er Ha Hm. destruct (children_holds _ _ _ H) as (t & Ht & <-). apply (proj1 (in_order_iff _ _ _)) in So.
  assert (Ec := h_child _ _ _ Ht). rewrite Ec in Nr. destruct (NR_tree _ _ _ (h_rep _ _ _ Ht) Nr) as [N1 N2].
  destruct (add_child_ok upper st self e maxn t) as (st' & t' & E & [A1 A2 A3 A4 A5 A6 A7 A8 A9 A10]); auto.
  - unfold HEAD. lia.
  - intros j Hj. destruct (name_eq upper (d_name (st e)) (d_name (st j))) eqn:Q; auto. apply (proj1 (name_eq_iff _ _ _)) in Q. destruct (Ha j Hj Q).
  - assert (Z : forall j, 0 <= j -> j <> HEAD) by (unfold HEAD; intros; lia). assert (Ec' := h_child _ _ _ A1).
    exists st', (ids t'). split; auto. split; [|split; [auto|]]; [|split; [|split; [|split; [|split; [|split; [|split]]]]]]; auto.
    + apply holds_children; [auto|apply (hc_pos _ _ _ H)|]. intros i Hi. apply (Permutation_in _ A2) in Hi. destruct Hi as [<- |Hi]; [auto|apply (hc_ids _ _ _ H); auto].
    + apply in_order_iff. auto.
    + rewrite Ec', <- A4. apply tree_NR; [apply (h_rep _ _ _ A1)|auto].
    + intros n R. rewrite Ec in R. destruct (RB_tree _ _ _ _ (h_rep _ _ _ Ht) R) as (_ & _ & B). destruct (A6 _ B) as (m & B'). exists m. rewrite Ec', <- A4. apply tree_RB; [apply (h_rep _ _ _ A1)|auto|auto].
    + rewrite A10. unfold set_child. rewrite supd_same. auto.
Qed.
Print Assumptions C17_add_child.

(** ** C18: removing a child, for any colouring of the tree *)
Theorem C18_remove_child : forall upper st self e maxn l,
  has_children st self l -> in_order upper st l -> In e l -> zlen l < maxn ->
  exists st' A B, pop upper st self e maxn = Ok st' /\ l = A ++ e :: B /\
    has_children st' self (A ++ B) /\ in_order upper st' (A ++ B) /\
    (forall j, 0 <= j -> d_name (st' j) = d_name (st j) /\ d_kind (st' j) = d_kind (st j)) /\
    (forall j, 0 <= j -> j <> self -> d_child (st' j) = d_child (st j)) /\
    (forall j, 0 <= j -> j <> self -> ~ In j l -> st' j = st j) /\
    d_left (st' e) = None /\ d_right (st' e) = None /\
    d_left (st' self) = d_left (st self) /\ d_right (st' self) = d_right (st self) /\ d_red (st' self) = d_red (st self) /\
    (~ In 0 l -> forall c, d_child (st' self) = Some c -> d_red (st' c) = false).
Proof.
  intros upper st self e maxn l H So He Hm. destruct (children_holds _ _ _ H) as (t & Ht & <-). apply (proj1 (in_order_iff _ _ _)) in So.
  destruct (pop_ok upper st self e maxn t Ht So He Hm) as (st' & t' & E & [R1 (A & B & R2 & R2') R3 R4 R5 R6 R7 R8 R9]).
  assert (Z : forall j, 0 <= j -> j <> HEAD) by (unfold HEAD; intros; lia).
  exists st', A, B. split; auto. split; auto. rewrite <- R2'. split; [|split; [|split; [|split; [|split; [|split; [|split]]]]]]; auto; try apply R7.
  - apply holds_children; [auto|apply (hc_pos _ _ _ H)|]. intros i Hi. apply (hc_ids _ _ _ H). rewrite R2. rewrite R2' in Hi. rewrite in_app_iff in *. cbn. tauto.
  - apply in_order_iff. auto.
  - rewrite R9. unfold set_child. rewrite supd_same. cbn [d_left d_right d_red d_child]. repeat split. intros H0 c Ec. specialize (R4 H0). destruct R1 as [_ Q _ _ _ _]. destruct t'; [discriminate|]. injection Ec as <-. cbn in Q, R4. destruct Q as [-> _]. auto.
Qed.
Print Assumptions C18_remove_child.

(** ** A concrete folder *)
Definition caps (s : list Z) : list Z := map (fun c => if (97 <=? c) && (c <=? 122) then c - 32 else c) s.
(** an empty storage 0 and unused entries, entry [i] named by one code point *)
Definition blank : store := fun i => mkd [i] 2 false None None None.
Definition addr (r : result store) (e : Z) : result store := do st <- r ;; add_child caps st 0 e 1000.
Definition popr (r : result store) (e : Z) : result store := do st <- r ;; pop caps st 0 e 1000.
(** numbers to insert (true) or remove *)
Definition play (l : list (bool * Z)) : result store := fold_left (fun r (x : bool * Z) => if fst x then addr r (snd x) else popr r (snd x)) l (Ok blank).

(** decision procedures for the specification, to compute with witnesses *)
Fixpoint sibs (n : nat) (st : store) (o : option Z) : option (list Z) :=
  match o, n with
  | None, _ => Some []
  | Some i, S k => match sibs k st (d_left (st i)), sibs k st (d_right (st i)) with Some l, Some r => Some (l ++ i :: r) | _, _ => None end
  | Some _, O => None
  end.
Lemma sibs_ok : forall n st o l, sibs n st o = Some l -> Sib st o l.
Proof.
  induction n as [|n IH]; intros st [i|] l; cbn; try discriminate; try (intros E; injection E as <-; constructor).
  destruct (sibs n st (d_left (st i))) eqn:E1; [|discriminate]. destruct (sibs n st (d_right (st i))) eqn:E2; [|discriminate]. intros E. injection E as <-. constructor; apply IH; auto.
Qed.
Fixpoint rbs (n : nat) (st : store) (o : option Z) : option (bool * nat) :=
  match o, n with
  | None, _ => Some (false, O)
  | Some i, S k =>
    match rbs k st (d_left (st i)), rbs k st (d_right (st i)) with
    | Some (a, x), Some (b, y) =>
      if negb (Nat.eqb x y) then None else if d_red (st i) then (if a || b then None else Some (true, x)) else Some (false, S x)
    | _, _ => None
    end
  | Some _, O => None
  end.
Lemma rbs_ok : forall n st o c m, rbs n st o = Some (c, m) -> RB st o c m.
Proof.
  induction n as [|n IH]; intros st [i|] c m; cbn; try discriminate; try (intros E; injection E as <- <-; constructor).
  destruct (rbs n st (d_left (st i))) as [[a x]|] eqn:E1; [|discriminate]. destruct (rbs n st (d_right (st i))) as [[b y]|] eqn:E2; [|discriminate].
  destruct (Nat.eqb x y) eqn:E3; [|discriminate]. apply Nat.eqb_eq in E3. subst y. cbn [negb]. destruct (d_red (st i)) eqn:E4.
  - destruct a, b; try discriminate. intros E. injection E as <- <-. constructor; auto.
  - intros E. injection E as <- <-. econstructor; eauto.
Qed.
(** the entry at the end of a path of left (false) and right (true) links *)
Fixpoint at_path (st : store) (o : option Z) (p : list bool) : option Z :=
  match p, o with [], _ => o | d :: p', Some i => at_path st (if d then d_right (st i) else d_left (st i)) p' | _ :: _, None => None end.
Lemma RB_path : forall st p o c n, RB st o c n -> exists c' n', RB st (at_path st o p) c' n'.
Proof.
  intros st p. induction p as [|d p IH]; intros o c n H; cbn; eauto. destruct H; cbn; eauto using RB_none; destruct d; eauto.
Qed.
Lemma RB_red_red : forall st o p i j c n, RB st o c n -> at_path st o p = Some i -> d_red (st i) = true ->
  (d_left (st i) = Some j \/ d_right (st i) = Some j) -> d_red (st j) = false.
Proof.
  intros st o p i j c n H P R K. destruct (RB_path st p o c n H) as (c' & n' & H'). rewrite P in H'.
  inversion H' as [|x m X1 X2 X3|x a b m X1 X2 X3]; subst; [|congruence]. destruct K as [K|K]; rewrite K in *; [inversion X2|inversion X3]; subst; auto.
Qed.

Definition adds (l : list Z) : list (bool * Z) := map (fun i => (true, i)) l.
Definition get (r : result store) : store := match r with Ok st => st | Err _ => blank end.
Lemma one_char_order : forall st l, (forall i, In i l -> d_name (st i) = [i] /\ caps [i] = [i]) -> StronglySorted Z.lt l -> in_order caps st l.
Proof.
  intros st l H S. eapply sorted_ext; [|exact S]. intros a b Ha Hb L. destruct (H a Ha) as [-> Ea], (H b Hb) as [-> Eb]. right. split; auto. rewrite Ea, Eb. exists []. right. exists a, [], b, []. auto.
Qed.
Ltac lts := repeat constructor; vm_compute; reflexivity.

(** C17 applies to a folder of five entries, built by the code; the sixth goes in the middle *)
Definition five : store := get (play (adds [1; 2; 3; 5; 6])).
Example C17_example : has_children five 0 [1; 2; 3; 5; 6] /\ in_order caps five [1; 2; 3; 5; 6] /\ RB five (d_child (five 0)) false 2 /\
  (forall j, In j [1; 2; 3; 5; 6] -> ~ alike caps (d_name (five 4)) (d_name (five j))) /\
  match add_child caps five 0 4 1000 with Ok st => sibs 10 st (d_child (st 0)) = Some [1; 2; 3; 4; 5; 6] /\ rbs 10 st (d_child (st 0)) = Some (false, 2%nat) | Err _ => False end.
Proof.
  split; [|split; [|split; [|split]]].
  - constructor; [apply sibs_ok with (n := 10%nat); vm_compute; reflexivity|repeat constructor; cbn; lia|cbn; lia|lia|cbn; intros i Hi; lia].
  - apply one_char_order; [|lts]. cbn. intros i Hi. repeat (destruct Hi as [<- |Hi]; [split; vm_compute; reflexivity|]). destruct Hi.
  - apply rbs_ok with (n := 10%nat). vm_compute. reflexivity.
  - intros j Hj [_ X]. cbn in Hj. repeat (destruct Hj as [<- |Hj]; [vm_compute in X; discriminate|]). destruct Hj.
  - vm_compute. auto.
Qed.

(** C18 applies to trees that are not red-black, here a chain of red entries as no version of this
    library writes it *)
Definition chain : store := fun i => mkd [i] 2 true None (if (1 <=? i) && (i <? 6) then Some (i + 1) else None) (if i =? 0 then Some 1 else None).
Example C18_example : has_children chain 0 [1; 2; 3; 4; 5; 6] /\ in_order caps chain [1; 2; 3; 4; 5; 6] /\ match pop caps chain 0 3 1000 with Ok st => sibs 10 st (d_child (st 0)) = Some [1; 2; 4; 5; 6] | Err _ => False end.
Proof.
  split; [|split].
  - constructor; [apply sibs_ok with (n := 10%nat); vm_compute; reflexivity|repeat constructor; cbn; lia|cbn; lia|lia|cbn; intros i Hi; lia].
  - apply one_char_order; [|lts]. cbn. intros i Hi. repeat (destruct Hi as [<- |Hi]; [split; vm_compute; reflexivity|]). destruct Hi.
  - vm_compute. auto.
Qed.

(** ** C19 is false of the code: removing the second of four entries from a red-black tree leaves one
    path with more black entries than another. (Line 912 takes the entry itself for its sibling.) *)
Definition four : store := get (play (adds [1; 2; 3; 4])).
Theorem C19_removal_unbalances_refuted : exists upper st self e l n st',
  has_children st self l /\ in_order upper st l /\ RB st (d_child (st self)) false n /\ In e l /\
  pop upper st self e 1000 = Ok st' /\ forall c m, ~ RB st' (d_child (st' self)) c m.
Proof.
  exists caps, four, 0, 2, [1; 2; 3; 4], 2%nat, (get (pop caps four 0 2 1000)). split; [|split; [|split; [|split; [|split]]]].
  - constructor; [apply sibs_ok with (n := 10%nat); vm_compute; reflexivity|repeat constructor; cbn; lia|cbn; lia|lia|cbn; intros i Hi; lia].
  - apply one_char_order; [|lts]. cbn. intros i Hi. repeat (destruct Hi as [<- |Hi]; [split; vm_compute; reflexivity|]). destruct Hi.
  - apply rbs_ok with (n := 10%nat). vm_compute. reflexivity.
  - cbn. auto.
  - assert (P : match pop caps four 0 2 1000 with Ok _ => true | Err _ => false end = true) by (vm_compute; reflexivity). unfold get. destruct (pop caps four 0 2 1000); [reflexivity|discriminate].
  - set (w := get (pop caps four 0 2 1000)). intros c m H.
    assert (E0 : d_child (w 0) = Some 1) by (vm_compute; reflexivity). assert (E1 : d_left (w 1) = None) by (vm_compute; reflexivity). assert (E2 : d_right (w 1) = Some 3) by (vm_compute; reflexivity).
    assert (E3 : d_red (w 3) = false) by (vm_compute; reflexivity). clearbody w. rewrite E0 in H. inversion H as [|i k X1 X2 X3|i a b k X1 X2 X3]; subst.
    + rewrite E1 in X2. rewrite E2 in X3. inversion X2; subst. inversion X3; congruence.
    + rewrite E1 in X2. rewrite E2 in X3. inversion X2; subst. inversion X3; congruence.
Qed.
Print Assumptions C19_removal_unbalances_refuted.

(** The loss of balance reaches insertion: after this history of additions and removals, each of which
    succeeds, adding one more entry fails (gp is None at line 805). At that point insert has set
    child_id to None (759) and not set it back, so the folder has lost all its children. *)
Definition history : list (bool * Z) :=
  [(true,17);(true,16);(true,15);(true,14);(false,17);(true,13);(true,12);(true,11);(true,8);(true,4);(true,9);(false,13);(false,8);(true,7);(true,6);(false,6);(false,15);
   (true,2);(true,13);(true,6);(false,13);(false,6);(true,15);(true,10);(false,7);(true,3);(false,16);(true,7);(false,4);(false,2);(true,16);(false,12);(false,16);(true,1)].
Theorem C17_after_removals_refuted : exists st l, play history = Ok st /\ has_children st 0 l /\ in_order caps st l /\ ~ In 5 l /\
  (forall j, In j l -> ~ alike caps (d_name (st 5)) (d_name (st j))) /\ add_child caps st 0 5 1000 = Err TypeError.
Proof.
  assert (P : match play history with Ok _ => true | Err _ => false end = true) by (vm_compute; reflexivity).
  exists (get (play history)), [1; 3; 7; 9; 10; 11; 14; 15]. split; [|split; [|split; [|split; [|split]]]].
  - unfold get. destruct (play history); [reflexivity|discriminate].
  - constructor; [apply sibs_ok with (n := 10%nat); vm_compute; reflexivity|repeat constructor; cbn; lia|cbn; lia|lia|cbn; intros i Hi; lia].
  - apply one_char_order; [|lts]. cbn. intros i Hi. repeat (destruct Hi as [<- |Hi]; [split; vm_compute; reflexivity|]). destruct Hi.
  - cbn. lia.
  - intros j Hj [_ X]. cbn in Hj. repeat (destruct Hj as [<- |Hj]; [vm_compute in X; discriminate|]). destruct Hj.
  - vm_compute. reflexivity.
Qed.
Print Assumptions C17_after_removals_refuted.
