From Verif Require Import Base BaseFacts LRUModel.
From Coq Require Import ZArith List Bool Lia.
Import ListNotations.
Open Scope nat_scope.

Section P.
Variables K V : Type.
Variable keqb : K -> K -> bool.
Hypothesis keqb_spec : forall a b, keqb a b = true <-> a = b.
Notation node := (node K V).
Notation lru := (lru K V).
Implicit Types h : nat -> node.

Lemma keqb_refl : forall k, keqb k k = true.
Proof. intros; apply keqb_spec; auto. Qed.
Lemma keqb_neq : forall a b, a <> b -> keqb a b = false.
Proof. intros. destruct (keqb a b) eqn:E; auto. apply keqb_spec in E; contradiction. Qed.

(** consecutive nodes of a list point at each other *)
Fixpoint chain h (l : list nat) : Prop :=
  match l with
  | a :: ((b :: _) as t) => n_next K V (h a) = b /\ n_prev K V (h b) = a /\ chain h t
  | _ => True
  end.

Definition ring h (hd : nat) (l : list nat) : Prop := chain h (hd :: l ++ [hd]) /\ NoDup (hd :: l).

Lemma chain_app : forall h l1 a l2, chain h (l1 ++ a :: l2) <-> chain h (l1 ++ [a]) /\ chain h (a :: l2).
Proof.
  intros h l1. induction l1 as [|x l1 IH]; intros a l2.
  - cbn [app]. split; [intro; split; auto; exact I|tauto].
  - destruct l1 as [|y l1].
    + cbn [app chain]. tauto.
    + cbn [app]. change (chain h (x :: y :: l1 ++ a :: l2)) with
        (n_next K V (h x) = y /\ n_prev K V (h y) = x /\ chain h ((y :: l1) ++ a :: l2)).
      change (chain h (x :: y :: l1 ++ [a])) with
        (n_next K V (h x) = y /\ n_prev K V (h y) = x /\ chain h ((y :: l1) ++ [a])).
      rewrite IH. tauto.
Qed.

Lemma chain_cons2 : forall h a b t, chain h (a :: b :: t) <->
  n_next K V (h a) = b /\ n_prev K V (h b) = a /\ chain h (b :: t).
Proof. intros; cbn [chain]; tauto. Qed.

(** framing: chain depends on next of all but the last, prev of all but the first *)
Lemma chain_frame : forall h h' l,
  (forall x, In x (removelast l) -> n_next K V (h' x) = n_next K V (h x)) ->
  (forall x, In x (tl l) -> n_prev K V (h' x) = n_prev K V (h x)) ->
  chain h l -> chain h' l.
Proof.
  intros h h' l. induction l as [|a [|b t] IH]; intros Hn Hp Hc; auto.
  - cbn [chain] in *. destruct Hc as [H1 [H2 H3]]. split; [|split].
    + rewrite Hn; auto. left; auto.
    + rewrite Hp; auto. left; auto.
    + apply IH; auto.
      * intros x Hx. apply Hn. cbn [removelast]. right. exact Hx.
      * intros x Hx. apply Hp. cbn [tl] in *. right; auto.
Qed.

Ltac hsimp := unfold set_next, set_prev, set_value, set_empty, set_key in *;
  repeat match goal with
  | |- context [Nat.eqb ?a ?a] => rewrite (Nat.eqb_refl a)
  | |- context [Nat.eqb ?a ?b] => destruct (Nat.eqb_spec a b); subst
  end; cbn [n_next n_prev n_value n_empty n_key] in *.

Lemma set_next_next : forall h i v j, n_next K V (set_next K V h i v j) = if Nat.eqb j i then v else n_next K V (h j).
Proof. intros; unfold set_next; destruct (Nat.eqb j i); auto. Qed.
Lemma set_next_prev : forall h i v j, n_prev K V (set_next K V h i v j) = n_prev K V (h j).
Proof. intros; unfold set_next; destruct (Nat.eqb_spec j i); subst; auto. Qed.
Lemma set_prev_prev : forall h i v j, n_prev K V (set_prev K V h i v j) = if Nat.eqb j i then v else n_prev K V (h j).
Proof. intros; unfold set_prev; destruct (Nat.eqb j i); auto. Qed.
Lemma set_prev_next : forall h i v j, n_next K V (set_prev K V h i v j) = n_next K V (h j).
Proof. intros; unfold set_prev; destruct (Nat.eqb_spec j i); subst; auto. Qed.

(** payload of a node *)
Definition pay h i := (n_value K V (h i), n_empty K V (h i), n_key K V (h i)).
Lemma pay_set_next : forall h i v j, pay (set_next K V h i v) j = pay h j.
Proof. intros; unfold pay, set_next; destruct (Nat.eqb_spec j i); subst; auto. Qed.
Lemma pay_set_prev : forall h i v j, pay (set_prev K V h i v) j = pay h j.
Proof. intros; unfold pay, set_prev; destruct (Nat.eqb_spec j i); subst; auto. Qed.
Lemma pay_make_first : forall hd h x j, pay (make_first K V hd h x) j = pay h j.
Proof. intros. unfold make_first. cbv zeta. repeat rewrite ?pay_set_next, ?pay_set_prev. auto. Qed.

Definition unlink h x :=
  let h1 := set_next K V h (n_prev K V (h x)) (n_next K V (h x)) in
  set_prev K V h1 (n_next K V (h1 x)) (n_prev K V (h1 x)).
Definition link hd h x :=
  let h3 := set_prev K V h x (n_prev K V (h hd)) in
  let h4 := set_next K V h3 x (n_next K V (h3 (n_prev K V (h3 hd)))) in
  let h5 := set_prev K V h4 (n_next K V (h4 x)) x in
  set_next K V h5 (n_prev K V (h5 x)) x.
Lemma make_first_split : forall hd h x, make_first K V hd h x = link hd (unlink h x) x.
Proof. reflexivity. Qed.

Lemma list_last_split : forall (a : nat) l, exists p t, a :: l = p ++ [t].
Proof. intros. destruct (@exists_last _ (a :: l)) as [p [t E]]; [discriminate|eauto]. Qed.

Lemma unlink_ring : forall h hd l1 x l2, ring h hd (l1 ++ x :: l2) -> ring (unlink h x) hd (l1 ++ l2).
Proof.
  intros h hd l1 x l2 [Hc Hnd].
  destruct (list_last_split hd l1) as [p [a Ea]].
  assert (exists b q, l2 ++ [hd] = b :: q) as [b [q Eb]].
  { destruct l2; cbn; eauto. }
  assert (Hc0 : chain h (p ++ a :: x :: b :: q)).
  { rewrite <- app_assoc in Hc. cbn [app] in Hc. rewrite Eb in Hc.
    change (hd :: l1 ++ x :: b :: q) with ((hd :: l1) ++ x :: b :: q) in Hc.
    rewrite Ea, <- app_assoc in Hc. exact Hc. }
  apply chain_app in Hc0. destruct Hc0 as [Hpa Hc0].
  apply chain_cons2 in Hc0. destruct Hc0 as [Hax [Hxa Hc0]].
  apply chain_cons2 in Hc0. destruct Hc0 as [Hxb [Hbx Hbq]].
  assert (Hnd1 : NoDup ((hd :: l1) ++ x :: l2)) by exact Hnd.
  assert (Hx1 : ~ In x (hd :: l1)) by (apply NoDup_remove_2 in Hnd1; intro; apply Hnd1; apply in_or_app; auto).
  assert (Hx2 : ~ In x l2) by (apply NoDup_remove_2 in Hnd1; intro; apply Hnd1; apply in_or_app; auto).
  assert (Hnd2 : NoDup ((hd :: l1) ++ l2)) by (apply NoDup_remove_1 in Hnd1; auto).
  assert (Ha : In a (hd :: l1)) by (rewrite Ea; apply in_or_app; right; left; auto).
  assert (Hax' : a <> x) by (intros ->; contradiction).
  assert (Hb : b = hd /\ l2 = [] \/ exists t, l2 = b :: t).
  { destruct l2 as [|z t]; cbn in Eb; inversion Eb; subst; eauto. }
  assert (Hbx' : b <> x).
  { destruct Hb as [[Hb1 Hb2]|[t Ht]]; intros Hbb.
    - apply Hx1. left; congruence.
    - apply Hx2. rewrite Ht. left; auto. }
  unfold unlink. cbv zeta.
  set (h1 := set_next K V h (n_prev K V (h x)) (n_next K V (h x))).
  assert (E1 : n_next K V (h1 x) = b).
  { unfold h1. rewrite set_next_next, Hxa, Hxb. destruct (Nat.eqb_spec x a); auto. }
  assert (E2 : n_prev K V (h1 x) = a).
  { unfold h1. rewrite set_next_prev. auto. }
  rewrite E1, E2. unfold h1. rewrite Hxa, Hxb.
  set (h' := set_prev K V (set_next K V h a b) b a).
  assert (Nn : forall j, n_next K V (h' j) = if Nat.eqb j a then b else n_next K V (h j)).
  { intro j. unfold h'. rewrite set_prev_next, set_next_next. auto. }
  assert (Np : forall j, n_prev K V (h' j) = if Nat.eqb j b then a else n_prev K V (h j)).
  { intro j. unfold h'. rewrite set_prev_prev, set_next_prev. auto. }
  clear E1 E2 Hax Hxa Hxb Hbx. clearbody h' h1.
  assert (Hndp : NoDup (p ++ [a])).
  { rewrite <- Ea. apply NoDup_app_remove_r in Hnd2. auto. }
  assert (Hap : ~ In a p).
  { apply NoDup_remove_2 in Hndp. rewrite app_nil_r in Hndp. auto. }
  split.
  - replace (hd :: (l1 ++ l2) ++ [hd]) with (p ++ a :: b :: q).
    2:{ rewrite <- app_assoc, Eb. change (hd :: l1 ++ b :: q) with ((hd :: l1) ++ b :: q).
        rewrite Ea, <- app_assoc. reflexivity. }
    apply chain_app. split.
    + apply chain_frame with h; auto.
      * intros y Hy. rewrite removelast_app in Hy by discriminate. cbn in Hy. rewrite app_nil_r in Hy.
        rewrite Nn. destruct (Nat.eqb_spec y a); subst; auto; contradiction.
      * intros y Hy. rewrite <- Ea in Hy. cbn [tl] in Hy. rewrite Np.
        destruct (Nat.eqb_spec y b); subst; auto. exfalso.
        inversion Hnd2; subst. destruct Hb as [[-> ->]|[t ->]].
        -- apply H1. apply in_or_app; auto.
        -- apply NoDup_remove_2 in H2. apply H2. apply in_or_app; auto.
    + apply chain_cons2. split; [|split].
      * rewrite Nn, Nat.eqb_refl. auto.
      * rewrite Np, Nat.eqb_refl. auto.
      * apply chain_frame with h; auto.
        -- intros y Hy. rewrite <- Eb in Hy. rewrite removelast_app in Hy by discriminate. cbn in Hy.
           rewrite app_nil_r in Hy. rewrite Nn. destruct (Nat.eqb_spec y a); subst; auto. exfalso.
           apply in_split in Ha. destruct Ha as [u [w Ew]]. rewrite Ew in Hnd2.
           rewrite <- app_assoc in Hnd2. cbn in Hnd2. apply NoDup_remove_2 in Hnd2. apply Hnd2.
           apply in_or_app; right. apply in_or_app; auto.
        -- intros y Hy. cbn [tl] in Hy. rewrite Np. destruct (Nat.eqb_spec y b); subst; auto. exfalso.
           destruct Hb as [[Hb1 Hb2]|[t Et]].
           ++ subst. cbn in Eb. inversion Eb; subst. destruct Hy.
           ++ subst l2. cbn in Eb. inversion Eb; subst.
              apply in_app_or in Hy. destruct Hy as [Hy|[Hy|[]]].
              ** apply NoDup_remove_2 in Hnd2. apply Hnd2. apply in_or_app; auto.
              ** subst. inversion Hnd2; subst. apply H1. apply in_or_app. right; left; auto.
  - exact Hnd2.
Qed.

Lemma link_ring : forall h hd m x, ring h hd m -> ~ In x (hd :: m) -> ring (link hd h x) hd (m ++ [x]).
Proof.
  intros h hd m x [Hc Hnd] Hx.
  destruct (list_last_split hd m) as [p [t Et]].
  change (hd :: m ++ [hd]) with ((hd :: m) ++ [hd]) in Hc. rewrite Et, <- app_assoc in Hc. cbn [app] in Hc.
  apply chain_app in Hc. destruct Hc as [Hpt Hc]. cbn [chain] in Hc. destruct Hc as [Hth [Hht _]].
  assert (Htx : t <> x). { intro; subst. apply Hx. rewrite Et. apply in_or_app; right; left; auto. }
  assert (Hhx : hd <> x). { intro; subst. apply Hx. left; auto. }
  assert (Htp : ~ In t p).
  { rewrite Et in Hnd. apply NoDup_remove_2 in Hnd. rewrite app_nil_r in Hnd. auto. }
  unfold link. cbv zeta. rewrite Hht.
  set (h3 := set_prev K V h x t).
  assert (E3 : n_prev K V (h3 hd) = t). { unfold h3. rewrite set_prev_prev. destruct (Nat.eqb_spec hd x); congruence. }
  assert (E3' : n_next K V (h3 t) = hd). { unfold h3. rewrite set_prev_next. auto. }
  rewrite E3, E3'. set (h4 := set_next K V h3 x hd).
  assert (E4 : n_next K V (h4 x) = hd). { unfold h4. rewrite set_next_next, Nat.eqb_refl. auto. }
  rewrite E4. set (h5 := set_prev K V h4 hd x).
  assert (E5 : n_prev K V (h5 x) = t).
  { unfold h5, h4, h3. rewrite set_prev_prev, set_next_prev, set_prev_prev, Nat.eqb_refl.
    destruct (Nat.eqb_spec x hd); congruence. }
  rewrite E5.
  set (h' := set_next K V h5 t x).
  assert (Nn : forall j, n_next K V (h' j) = if Nat.eqb j t then x else if Nat.eqb j x then hd else n_next K V (h j)).
  { intro j. unfold h', h5, h4, h3. rewrite set_next_next, set_prev_next, set_next_next, set_prev_next. auto. }
  assert (Np : forall j, n_prev K V (h' j) = if Nat.eqb j hd then x else if Nat.eqb j x then t else n_prev K V (h j)).
  { intro j. unfold h', h5, h4, h3. rewrite set_next_prev, set_prev_prev, set_next_prev, set_prev_prev. auto. }
  clear E3 E3' E4 E5 Hth Hht. clearbody h'. clear h5 h4 h3.
  split.
  - replace (hd :: (m ++ [x]) ++ [hd]) with (p ++ t :: x :: [hd]).
    2:{ rewrite <- app_assoc. change (hd :: m ++ [x] ++ [hd]) with ((hd :: m) ++ [x; hd]).
        rewrite Et, <- app_assoc. reflexivity. }
    apply chain_app. split.
    + apply chain_frame with h; auto.
      * intros y Hy. rewrite removelast_app in Hy by discriminate. cbn in Hy. rewrite app_nil_r in Hy.
        rewrite Nn. destruct (Nat.eqb_spec y t); [subst; contradiction|].
        destruct (Nat.eqb_spec y x); auto. subst. exfalso. apply Hx. rewrite Et. apply in_or_app; auto.
      * intros y Hy. rewrite <- Et in Hy. cbn [tl] in Hy. rewrite Np.
        destruct (Nat.eqb_spec y hd).
        { subst. inversion Hnd; subst; contradiction. }
        destruct (Nat.eqb_spec y x); auto. subst. exfalso. apply Hx. right; auto.
    + cbn [chain]. rewrite !Nn, !Np, !Nat.eqb_refl.
      destruct (Nat.eqb_spec x t); [congruence|]. destruct (Nat.eqb_spec x hd); [congruence|]. auto.
  - replace (hd :: m ++ [x]) with ((hd :: m) ++ [x]) by reflexivity.
    apply (NoDup_Add (a:=x) (l:=hd :: m)).
    + change (hd :: m ++ [x]) with ((hd :: m) ++ [x]).
      rewrite <- (app_nil_r (hd :: m)) at 1. apply Add_app.
    + split; auto.
Qed.

Lemma ring_rotate : forall h hd m x, ring h hd (m ++ [x]) -> ring h x (hd :: m).
Proof.
  intros h hd m x [Hc Hnd]. split.
  - rewrite <- app_assoc in Hc. cbn [app] in Hc.
    change (hd :: m ++ [x; hd]) with ((hd :: m) ++ x :: [hd]) in Hc.
    apply chain_app in Hc. destruct Hc as [H1 H2].
    change (x :: (hd :: m) ++ [x]) with ([x] ++ hd :: (m ++ [x])).
    apply chain_app. split; auto.
  - assert (NoDup ((hd :: m) ++ [x])) as H by exact Hnd.
    apply NoDup_remove_1 in H as H1. apply NoDup_remove_2 in H. rewrite app_nil_r in *.
    constructor; auto.
Qed.

Lemma ring_rotate_back : forall h hd m x, ring h x (hd :: m) -> ring h hd (m ++ [x]).
Proof.
  intros h hd m x [Hc Hnd]. split.
  - change (x :: (hd :: m) ++ [x]) with ([x] ++ hd :: (m ++ [x])) in Hc.
    apply chain_app in Hc. destruct Hc as [H1 H2].
    rewrite <- app_assoc. cbn [app]. change (hd :: m ++ [x; hd]) with ((hd :: m) ++ x :: [hd]).
    apply chain_app. split; auto.
  - inversion Hnd; subst.
    apply (NoDup_Add (a:=x) (l:=hd :: m)).
    + change (hd :: m ++ [x]) with ((hd :: m) ++ [x]).
      rewrite <- (app_nil_r (hd :: m)) at 1. apply Add_app.
    + split; auto.
Qed.

(** make_first puts a node other than the head just before the head *)
Lemma make_first_other : forall h hd l1 x l2, ring h hd (l1 ++ x :: l2) ->
  ring (make_first K V hd h x) hd (l1 ++ l2 ++ [x]).
Proof.
  intros h hd l1 x l2 H. rewrite make_first_split. rewrite app_assoc. apply link_ring.
  - apply unlink_ring; auto.
  - destruct H as [_ H]. change (hd :: l1 ++ x :: l2) with ((hd :: l1) ++ x :: l2) in H.
    apply NoDup_remove_2 in H. exact H.
Qed.

Lemma make_first_head : forall h hd l, ring h hd l -> ring (make_first K V hd h hd) hd l.
Proof.
  intros h hd l [Hc Hnd]. split; auto.
  destruct l as [|b l].
  - cbn [app chain] in *. destruct Hc as [H1 [H2 _]].
    unfold make_first. cbv zeta. rewrite ?H1, ?H2.
    repeat (rewrite ?set_next_next, ?set_next_prev, ?set_prev_next, ?set_prev_prev, ?H1, ?H2, ?Nat.eqb_refl). auto.
  - destruct (list_last_split b l) as [p [t Et]].
    assert (Hhd : ~ In hd (b :: l)) by (inversion Hnd; auto).
    assert (Htb : t <> hd). { intro; subst. apply Hhd. rewrite Et. apply in_or_app; right; left; auto. }
    assert (Hbh : b <> hd). { intro; subst. apply Hhd. left; auto. }
    assert (Hn : n_next K V (h hd) = b) by (cbn in Hc; tauto).
    assert (Hp : n_prev K V (h b) = hd) by (cbn in Hc; tauto).
    assert (Ht : n_prev K V (h hd) = t /\ n_next K V (h t) = hd).
    { change (hd :: (b :: l) ++ [hd]) with ([hd] ++ (b :: l) ++ [hd]) in Hc. rewrite Et in Hc.
      rewrite <- app_assoc in Hc. cbn [app] in Hc. change (hd :: p ++ [t; hd]) with ((hd :: p) ++ t :: [hd]) in Hc.
      apply chain_app in Hc. destruct Hc as [_ Hc]. cbn in Hc. tauto. }
    destruct Ht as [Ht1 Ht2].
    unfold make_first. cbv zeta. rewrite Hn, Ht1.
    set (h1 := set_next K V h t b).
    assert (A1 : n_next K V (h1 hd) = b). { unfold h1; rewrite set_next_next. destruct (Nat.eqb_spec hd t); congruence. }
    assert (A2 : n_prev K V (h1 hd) = t). { unfold h1; rewrite set_next_prev; auto. }
    rewrite A1, A2. set (h2 := set_prev K V h1 b t).
    assert (A3 : n_prev K V (h2 hd) = t). { unfold h2; rewrite set_prev_prev. destruct (Nat.eqb_spec hd b); congruence. }
    rewrite A3. set (h3 := set_prev K V h2 hd t).
    assert (A4 : n_prev K V (h3 hd) = t). { unfold h3; rewrite set_prev_prev, Nat.eqb_refl; auto. }
    assert (A5 : n_next K V (h3 t) = b). { unfold h3, h2, h1; rewrite !set_prev_next, set_next_next, Nat.eqb_refl; auto. }
    rewrite A4, A5. set (h4 := set_next K V h3 hd b).
    assert (A6 : n_next K V (h4 hd) = b). { unfold h4; rewrite set_next_next, Nat.eqb_refl; auto. }
    rewrite A6. set (h5 := set_prev K V h4 b hd).
    assert (A7 : n_prev K V (h5 hd) = t).
    { unfold h5, h4; rewrite set_prev_prev, set_next_prev. destruct (Nat.eqb_spec hd b); [congruence|]. auto. }
    rewrite A7.
    apply chain_frame with h; auto; intros y _; unfold h5, h4, h3, h2, h1;
      repeat (rewrite ?set_next_next, ?set_next_prev, ?set_prev_next, ?set_prev_prev).
    + destruct (Nat.eqb_spec y t); [subst; auto|]. destruct (Nat.eqb_spec y hd); subst; auto.
    + destruct (Nat.eqb_spec y b); [subst; auto|]. destruct (Nat.eqb_spec y hd); subst; auto.
Qed.

(** after make_first, making that node the head gives the move-to-front order *)
Lemma isring_to_front : forall h hd t l1 x l2, hd :: t = l1 ++ x :: l2 -> ring h hd t ->
  ring (make_first K V hd h x) x (l1 ++ l2).
Proof.
  intros h hd t l1 x l2 E H. destruct l1 as [|a l1]; cbn [app] in E; inversion E; subst.
  - apply make_first_head; auto.
  - cbn [app]. apply ring_rotate. rewrite <- app_assoc. apply make_first_other; auto.
Qed.

Lemma chain_heap_eq : forall h h' l, (forall j, n_next K V (h' j) = n_next K V (h j)) ->
  (forall j, n_prev K V (h' j) = n_prev K V (h j)) -> chain h l -> chain h' l.
Proof. intros. apply chain_frame with h; auto. Qed.

Lemma ring_heap_eq : forall h h' hd l, (forall j, n_next K V (h' j) = n_next K V (h j)) ->
  (forall j, n_prev K V (h' j) = n_prev K V (h j)) -> ring h hd l -> ring h' hd l.
Proof. intros h h' hd l H1 H2 [A B]. split; auto. apply chain_heap_eq with h; auto. Qed.

Lemma upd_ptr : forall h i v b k,
  (forall j, n_next K V (set_value K V h i v j) = n_next K V (h j)) /\
  (forall j, n_prev K V (set_value K V h i v j) = n_prev K V (h j)) /\
  (forall j, n_next K V (set_empty K V h i b j) = n_next K V (h j)) /\
  (forall j, n_prev K V (set_empty K V h i b j) = n_prev K V (h j)) /\
  (forall j, n_next K V (set_key K V h i k j) = n_next K V (h j)) /\
  (forall j, n_prev K V (set_key K V h i k j) = n_prev K V (h j)).
Proof.
  intros. unfold set_value, set_empty, set_key.
  repeat split; intro j; destruct (Nat.eqb_spec j i); subst; auto.
Qed.

(** ** The representation invariant *)
Definition holds h (i : nat) (kv : K * V) : Prop := pay h i = (Some (snd kv), false, Some (fst kv)).
Definition blank h (i : nat) : Prop := n_empty K V (h i) = true.

Definition Inv (cap : nat) (s : lru) (l : list (K * V)) : Prop :=
  exists ne em t,
    lhead K V s :: t = ne ++ em /\ ring (heap K V s) (lhead K V s) t /\
    Forall2 (holds (heap K V s)) ne l /\
    Forall (blank (heap K V s)) em /\
    NoDup (map fst l) /\
    length (ne ++ em) = cap /\
    (forall k i, data K V s k = Some i <-> exists v, In (i, (k, v)) (combine ne l)).

Lemma al_get_In : forall l k v, al_get K V keqb l k = Some v -> In (k, v) l.
Proof.
  induction l as [|[k' v'] l IH]; cbn; intros k v H; [discriminate|].
  destruct (keqb k k') eqn:E.
  - apply keqb_spec in E. inversion H; subst. auto.
  - right. apply IH; auto.
Qed.

Lemma In_al_get : forall l k v, NoDup (map fst l) -> In (k, v) l -> al_get K V keqb l k = Some v.
Proof.
  induction l as [|[k' v'] l IH]; cbn; intros k v Hn Hin; [contradiction|].
  inversion Hn; subst. destruct Hin as [Hin|Hin].
  - inversion Hin; subst. rewrite keqb_refl. auto.
  - destruct (keqb k k') eqn:E.
    + apply keqb_spec in E. subst. exfalso. apply H1. apply in_map_iff. exists (k', v); auto.
    + apply IH; auto.
Qed.

Lemma al_get_None : forall l k, al_get K V keqb l k = None <-> ~ In k (map fst l).
Proof.
  induction l as [|[k' v'] l IH]; cbn; intros k; [tauto|].
  destruct (keqb k k') eqn:E.
  - apply keqb_spec in E. subst. split; [discriminate|]. intro H. exfalso; apply H; auto.
  - rewrite IH. assert (k' <> k) by (intro; subst; rewrite keqb_refl in E; discriminate). tauto.
Qed.

Lemma al_remove_split : forall l1 k v l2, NoDup (map fst (l1 ++ (k, v) :: l2)) ->
  al_remove K V keqb (l1 ++ (k, v) :: l2) k = l1 ++ l2.
Proof.
  intros l1 k v l2 H. unfold al_remove. rewrite filter_app. cbn [filter fst]. rewrite keqb_refl. cbn [negb].
  rewrite map_app in H. cbn [map fst] in H. apply NoDup_remove_2 in H.
  assert (F : forall m, (forall p, In p m -> fst p <> k) -> filter (fun p : K * V => negb (keqb k (fst p))) m = m).
  { induction m as [|p m IHm]; cbn [filter]; intros Hm; auto.
    rewrite keqb_neq by (intro; subst; apply (Hm p); [left|]; auto).
    cbn. f_equal. apply IHm. intros; apply Hm; right; auto. }
  rewrite !F; auto; intros p Hp Ep; apply H; apply in_or_app; [right|left]; apply in_map_iff; exists p; auto.
Qed.

Lemma combine_split_at : forall (ne : list nat) (l : list (K * V)) i p,
  In (i, p) (combine ne l) -> length ne = length l ->
  exists n1 n2 l1 l2, ne = n1 ++ i :: n2 /\ l = l1 ++ p :: l2 /\ length n1 = length l1 /\ length n2 = length l2.
Proof.
  induction ne as [|a ne IH]; destruct l as [|b l]; cbn; intros i p Hin Hlen; try contradiction.
  destruct Hin as [Hin|Hin].
  - inversion Hin; subst. exists [], ne, [], l. repeat split; auto.
  - destruct (IH l i p Hin) as [n1 [n2 [l1 [l2 [H1 [H2 [H3 H4]]]]]]]; [lia|].
    exists (a :: n1), n2, (b :: l1), l2. subst. cbn. repeat split; auto; lia.
Qed.

Lemma combine_app : forall A B (a1 a2 : list A) (b1 b2 : list B), length a1 = length b1 ->
  combine (a1 ++ a2) (b1 ++ b2) = combine a1 b1 ++ combine a2 b2.
Proof. induction a1; destruct b1; cbn; intros; try discriminate; auto. f_equal. auto. Qed.

Lemma Forall2_len : forall A B (R : A -> B -> Prop) a b, Forall2 R a b -> length a = length b.
Proof. induction 1; cbn; auto. Qed.

Lemma holds_pay : forall h h' i p, pay h' i = pay h i -> holds h i p -> holds h' i p.
Proof. unfold holds; intros; congruence. Qed.
Lemma blank_pay : forall h h' i, pay h' i = pay h i -> blank h i -> blank h' i.
Proof. unfold blank, pay; intros. inversion H; congruence. Qed.

Lemma Forall2_impl_in : forall A B (R S : A -> B -> Prop) a b,
  (forall x y, In x a -> R x y -> S x y) -> Forall2 R a b -> Forall2 S a b.
Proof.
  intros A B R S a b H F. induction F; constructor.
  - apply H; auto. left; auto.
  - apply IHF. intros. apply H; auto. right; auto.
Qed.

(** lookup of a key through the dict agrees with the association list *)
Lemma Inv_data_None : forall cap s l k, Inv cap s l -> data K V s k = None -> al_get K V keqb l k = None.
Proof.
  intros cap s l k (ne & em & t & E & R & F & B & ND & L & D) Hk.
  apply al_get_None. intro Hin. apply in_map_iff in Hin. destruct Hin as [[k' v] [Ek Hin]]. cbn in Ek; subst.
  apply Forall2_len in F. 
  destruct (In_nth _ _ (k, v) Hin) as [n [Hn En]].
  assert (In (nth n ne 0, (k, v)) (combine ne l)).
  { rewrite <- En, <- combine_nth by auto. apply nth_In. rewrite combine_length. lia. }
  assert (data K V s k = Some (nth n ne 0)) by (apply D; eauto). congruence.
Qed.

Lemma Inv_data_Some : forall cap s l k i, Inv cap s l -> data K V s k = Some i ->
  exists ne em t n1 n2 l1 l2 v,
    lhead K V s :: t = ne ++ em /\ ring (heap K V s) (lhead K V s) t /\
    ne = n1 ++ i :: n2 /\ l = l1 ++ (k, v) :: l2 /\ length n1 = length l1 /\ length n2 = length l2 /\
    Forall2 (holds (heap K V s)) n1 l1 /\ Forall2 (holds (heap K V s)) n2 l2 /\
    holds (heap K V s) i (k, v) /\
    Forall (blank (heap K V s)) em /\ NoDup (map fst l) /\ length (ne ++ em) = cap /\
    (forall k i, data K V s k = Some i <-> exists v, In (i, (k, v)) (combine ne l)) /\
    al_get K V keqb l k = Some v /\ NoDup (ne ++ em).
Proof.
  intros cap s l k i (ne & em & t & E & R & F & B & ND & L & D) Hk.
  pose proof (Forall2_len _ _ _ _ _ F) as FL.
  apply D in Hk as Hk'. destruct Hk' as [v Hv].
  destruct (combine_split_at _ _ _ _ Hv FL) as (n1 & n2 & l1 & l2 & H1 & H2 & H3 & H4).
  exists ne, em, t, n1, n2, l1, l2, v. subst ne l.
  apply Forall2_app_inv_l in F. destruct F as (l1' & l2' & F1 & F2 & EF).
  assert (l1' = l1 /\ l2' = (k, v) :: l2) as [-> ->].
  { apply Forall2_len in F1. apply app_eq_app in EF as [z [[Z1 Z2]|[Z1 Z2]]].
    - subst. rewrite app_length in *. destruct z; cbn in *; [|lia]. rewrite app_nil_r in *. auto.
    - subst. rewrite app_length in *. destruct z; cbn in *; [|lia]. rewrite app_nil_r in *. auto. }
  inversion F2; subst.
  repeat (split; auto); auto.
  - apply In_al_get; auto. apply in_or_app; right; left; auto.
  - rewrite <- E. destruct R; auto.
Qed.

Lemma NoDup_front : forall (l1 l2 : list (K * V)) k v v',
  NoDup (map fst (l1 ++ (k, v) :: l2)) -> NoDup (map fst ((k, v') :: l1 ++ l2)).
Proof.
  intros l1 l2 k v v' H. rewrite map_app in H. cbn [map fst] in *. rewrite map_app.
  constructor; [apply NoDup_remove_2 in H|apply NoDup_remove_1 in H]; auto.
Qed.

Lemma data_front : forall (n1 n2 : list nat) i (l1 l2 : list (K * V)) k v v' j k',
  length n1 = length l1 ->
  (exists w, In (j, (k', w)) (combine (n1 ++ i :: n2) (l1 ++ (k, v) :: l2))) <->
  (exists w, In (j, (k', w)) (combine (i :: n1 ++ n2) ((k, v') :: l1 ++ l2))).
Proof.
  intros. cbn [combine]. rewrite !combine_app by auto. cbn [combine].
  split; intros [w Hw].
  - apply in_app_or in Hw. destruct Hw as [Hw|[Hw|Hw]].
    + exists w. right. apply in_or_app; auto.
    + inversion Hw; subst. exists v'. left; auto.
    + exists w. right. apply in_or_app; auto.
  - destruct Hw as [Hw|Hw].
    + inversion Hw; subst. exists v. apply in_or_app. right; left; auto.
    + apply in_app_or in Hw. exists w. apply in_or_app. destruct Hw; [left|right; right]; auto.
Qed.

(** moving a present key to the front, with a new value *)
Lemma Inv_touch : forall cap s l k i v, Inv cap s l -> data K V s k = Some i ->
  let h1 := set_value K V (heap K V s) i (Some v) in
  Inv cap (mklru K V (make_first K V (lhead K V s) h1 i) (data K V s) i) ((k, v) :: al_remove K V keqb l k).
Proof.
  intros cap s l k i v HI Hk h1.
  destruct (Inv_data_Some _ _ _ _ _ HI Hk) as
    (ne & em & t & n1 & n2 & l1 & l2 & v0 & E & R & -> & -> & L1 & L2 & F1 & F2 & Hh & B & ND & L & D & G & NDi).
  rewrite al_remove_split by auto.
  set (s' := mklru _ _ _ _ _).
  exists (i :: n1 ++ n2), em, (n1 ++ n2 ++ em).
  assert (R1 : ring h1 (lhead K V s) t).
  { unfold h1. destruct (upd_ptr (heap K V s) i (Some v) true None) as (U1 & U2 & _). apply ring_heap_eq with (heap K V s); auto. }
  assert (Hpay : forall j, j <> i -> pay (heap K V s') j = pay (heap K V s) j).
  { intros j Hj. cbn [s' heap]. rewrite pay_make_first. unfold h1, pay, set_value. destruct (Nat.eqb_spec j i); congruence. }
  assert (Hi : ~ In i (n1 ++ n2 ++ em)).
  { rewrite <- app_assoc in NDi. cbn [app] in NDi. apply NoDup_remove_2 in NDi. auto. }
  cbn [s' lhead heap data]. fold s'.
  split; [cbn [app]; rewrite <- app_assoc; auto|].
  split; [apply isring_to_front with t; auto; rewrite E, <- app_assoc; auto|].
  split; [|split; [|split; [|split]]].
  - constructor.
    + unfold holds. rewrite pay_make_first. unfold h1, pay, set_value. rewrite Nat.eqb_refl. cbn.
      unfold holds, pay in Hh. inversion Hh; subst. congruence.
    + apply Forall2_app.
      * eapply Forall2_impl_in; [|exact F1]. intros x y Hx Hy. apply holds_pay with (heap K V s); auto.
        apply Hpay. intro; subst. apply Hi. apply in_or_app; auto.
      * eapply Forall2_impl_in; [|exact F2]. intros x y Hx Hy. apply holds_pay with (heap K V s); auto.
        apply Hpay. intro; subst. apply Hi. apply in_or_app; right; apply in_or_app; auto.
  - apply Forall_forall. intros x Hx. rewrite Forall_forall in B. apply blank_pay with (heap K V s); auto.
    apply Hpay. intro; subst. apply Hi. apply in_or_app; right; apply in_or_app; auto.
  - apply NoDup_front with v0; auto.
  - rewrite <- L. rewrite !app_length. cbn [length]. rewrite !app_length. cbn [length]. lia.
  - intros k' j. rewrite D. apply data_front; auto.
Qed.

Lemma set_value_same : forall h i v, n_value K V (h i) = v -> forall j, set_value K V h i v j = h j.
Proof. intros h i v H j. unfold set_value. destruct (Nat.eqb_spec j i); auto. subst. destruct (h i); auto. Qed.

(** get: the value set to itself *)
Lemma Inv_get : forall cap s l k i, Inv cap s l -> data K V s k = Some i ->
  exists v, al_get K V keqb l k = Some v /\
  n_value K V (make_first K V (lhead K V s) (heap K V s) i i) = Some v /\
  Inv cap (mklru K V (make_first K V (lhead K V s) (heap K V s) i) (data K V s) i) ((k, v) :: al_remove K V keqb l k).
Proof.
  intros cap s l k i HI Hk.
  destruct (Inv_data_Some _ _ _ _ _ HI Hk) as
    (ne & em & t & n1 & n2 & l1 & l2 & v0 & E & R & -> & -> & L1 & L2 & F1 & F2 & Hh & B & ND & L & D & G & NDi).
  exists v0. split; auto.
  assert (Hp : forall j, pay (make_first K V (lhead K V s) (heap K V s) i) j = pay (heap K V s) j) by (intro; apply pay_make_first).
  split. { specialize (Hp i). unfold holds in Hh. unfold pay in Hh, Hp. rewrite Hh in Hp. inversion Hp. auto. }
  rewrite al_remove_split by auto.
  exists (i :: n1 ++ n2), em, (n1 ++ n2 ++ em). cbn [heap lhead data].
  split; [cbn [app]; rewrite <- app_assoc; auto|].
  split; [apply isring_to_front with t; auto; rewrite E, <- app_assoc; auto|].
  split; [|split; [|split; [|split]]].
  - constructor; [eapply holds_pay; eauto|]. apply Forall2_app; [eapply Forall2_impl_in; [|exact F1]|eapply Forall2_impl_in; [|exact F2]]; intros; eapply holds_pay; eauto.
  - eapply Forall_impl; [|exact B]. intros; eapply blank_pay; eauto.
  - apply NoDup_front with v0; auto.
  - rewrite <- L. rewrite !app_length. cbn [length]. rewrite !app_length. cbn [length]. lia.
  - intros k' j. rewrite D. apply data_front; auto.
Qed.

Lemma ring_prev_last : forall h hd t p x, ring h hd t -> hd :: t = p ++ [x] -> n_prev K V (h hd) = x.
Proof.
  intros h hd t p x [Hc _] E. change (hd :: t ++ [hd]) with ((hd :: t) ++ [hd]) in Hc.
  rewrite E, <- app_assoc in Hc. apply chain_app in Hc. destruct Hc as [_ Hc]. cbn in Hc. tauto.
Qed.

Lemma ring_new_head : forall h hd t p x, ring h hd t -> hd :: t = p ++ [x] -> ring h x p.
Proof.
  intros h hd t p x R E. destruct p as [|a p]; cbn in E; inversion E; subst; auto.
  apply ring_rotate; auto.
Qed.

Lemma combine_In_l : forall A B (a : list A) (b : list B) x y, In (x, y) (combine a b) -> In x a.
Proof. intros. eapply in_combine_l; eauto. Qed.

(** inserting an absent key *)
Lemma Inv_insert : forall cap s l k v, 0 < cap -> Inv cap s l -> data K V s k = None ->
  exists s', setitem K V keqb s k v = Ok s' /\ Inv cap s' ((k, v) :: firstn (cap - 1) l).
Proof.
  intros cap s l k v Hcap HI Hk.
  pose proof (Inv_data_None _ _ _ _ HI Hk) as Hnone.
  destruct HI as (ne & em & t & E & R & F & B & ND & L & D).
  pose proof (Forall2_len _ _ _ _ _ F) as FL.
  destruct (list_last_split (lhead K V s) t) as [p [x Ex]].
  pose proof (ring_prev_last _ _ _ _ _ R Ex) as Hprev.
  pose proof (ring_new_head _ _ _ _ _ R Ex) as Rx.
  assert (NDi : NoDup (p ++ [x])) by (rewrite <- Ex; destruct R; auto).
  assert (Hxp : ~ In x p) by (apply NoDup_remove_2 in NDi; rewrite app_nil_r in NDi; auto).
  unfold setitem. rewrite Hk. rewrite Hprev. cbv zeta. clear Hprev.
  set (h3 := set_value K V (set_key K V (set_empty K V (heap K V s) x false) x (Some k)) x (Some v)).
  assert (Hptr : forall j, n_next K V (h3 j) = n_next K V (heap K V s j) /\ n_prev K V (h3 j) = n_prev K V (heap K V s j)).
  { intro j. unfold h3, set_value, set_key, set_empty. destruct (Nat.eqb_spec j x); subst; rewrite ?Nat.eqb_refl; cbn; auto.
    all: destruct (Nat.eqb_spec j x); try contradiction; auto. }
  assert (Hpay : forall j, j <> x -> pay h3 j = pay (heap K V s) j).
  { intros j Hj. unfold h3, pay, set_value, set_key, set_empty. destruct (Nat.eqb_spec j x); try contradiction. auto. }
  assert (Hx : holds h3 x (k, v)).
  { unfold holds, pay, h3, set_value, set_key, set_empty. rewrite !Nat.eqb_refl. cbn. auto. }
  assert (R3 : ring h3 x p) by (apply ring_heap_eq with (heap K V s); auto; intro; apply Hptr).
  assert (Hkl : ~ In k (map fst l)) by (apply al_get_None; auto).
  destruct em as [|e0 em0].
  - (* full: the last used entry is evicted *)
    rewrite app_nil_r in E, L.
    assert (Hne : ne = p ++ [x]) by congruence. clear E. subst ne.
    destruct (@exists_last _ l) as [l' [[k' v'] El]].
    { intro El0. rewrite El0, app_length in FL; cbn in FL; lia. }
    subst l. rewrite !app_length in FL. cbn in FL.
    assert (FLp : length p = length l') by lia.
    apply Forall2_app_inv_l in F. destruct F as (l1' & l2' & F1 & F2 & EF).
    assert (l1' = l' /\ l2' = [(k', v')]) as [-> ->].
    { apply Forall2_len in F2. destruct l2' as [|z [|]]; cbn in F2; try lia. apply app_inj_tail in EF. destruct EF; subst; auto. }
    inversion F2; subst. unfold holds, pay in H2. cbn in H2. inversion H2 as [[P1 P2 P3]]. rewrite P2, P3.
    assert (Dk' : data K V s k' = Some x).
    { apply D. exists v'. rewrite combine_app by auto. apply in_or_app; right; left; auto. }
    rewrite Dk'. cbn [bind]. eexists. split; [reflexivity|].
    exists (x :: p), [], p. cbn [heap lhead data].
    split; [rewrite app_nil_r; auto|]. split; auto.
    assert (firstn (length (p ++ [x]) - 1) (l' ++ [(k', v')]) = l') as ->.
    { rewrite app_length. cbn. replace (length p + 1 - 1) with (length l') by lia.
      rewrite firstn_app, firstn_all, Nat.sub_diag. cbn. apply app_nil_r. }
    split; [|split; [|split; [|split]]].
    + constructor; auto. eapply Forall2_impl_in; [|exact F1]. intros a b Ha Hb. apply holds_pay with (heap K V s); auto.
      apply Hpay. intro; subst; contradiction.
    + constructor.
    + cbn. rewrite map_app in Hkl, ND. cbn in Hkl, ND. constructor.
      * intro; apply Hkl. apply in_or_app; auto.
      * apply NoDup_remove_1 in ND. rewrite app_nil_r in ND. auto.
    + rewrite app_nil_r. cbn [length]. rewrite app_length. cbn. lia.
    + intros kk j. unfold data_set. destruct (keqb kk k) eqn:Ek.
      { apply keqb_spec in Ek; subst. split.
        - intro H. inversion H; subst. exists v. left; auto.
        - intros [w [Hw|Hw]]; [inversion Hw; auto|]. exfalso. apply Hkl. rewrite map_app. apply in_or_app. left.
          apply in_combine_r in Hw. apply in_map_iff. exists (k, w); auto. }
      assert (Hkk : kk <> k) by (intro; subst; rewrite keqb_refl in Ek; discriminate).
      destruct (keqb kk k') eqn:Ek'.
      { apply keqb_spec in Ek'; subst. split; [discriminate|]. intros [w [Hw|Hw]]; [inversion Hw; subst; contradiction|].
        exfalso. rewrite map_app in ND. cbn in ND. apply NoDup_remove_2 in ND. rewrite app_nil_r in ND. apply ND.
        apply in_combine_r in Hw. apply in_map_iff. exists (k', w); auto. }
      assert (Hkk' : kk <> k') by (intro; subst; rewrite keqb_refl in Ek'; discriminate).
      rewrite D. rewrite combine_app by auto. split; intros [w Hw]; exists w.
      * apply in_app_or in Hw. destruct Hw as [Hw|[Hw|[]]]; [right; auto|]. inversion Hw; subst; contradiction.
      * destruct Hw as [Hw|Hw]; [inversion Hw; subst; contradiction|]. apply in_or_app; auto.
  - (* not full: a blank node is reused *)
    assert (exists em', e0 :: em0 = em' ++ [x] /\ p = ne ++ em') as [em' [Eem' Ep]].
    { destruct (list_last_split e0 em0) as [q [y Ey]]. rewrite Ey in *. rewrite app_assoc, Ex in E.
      apply app_inj_tail in E. destruct E; subst. exists q; auto. }
    rewrite Eem' in *. subst p.
    assert (Bx : blank (heap K V s) x) by (apply Forall_app in B; destruct B as [_ B]; inversion B; auto).
    unfold blank in Bx. rewrite Bx. cbn [bind]. eexists. split; [reflexivity|].
    exists (x :: ne), em', (ne ++ em'). cbn [heap lhead data].
    split; auto. split; auto.
    assert (firstn (cap - 1) l = l) as ->.
    { apply firstn_all2. rewrite <- L, !app_length. cbn. lia. }
    split; [|split; [|split; [|split]]].
    + constructor; auto. eapply Forall2_impl_in; [|exact F]. intros a b Ha Hb. apply holds_pay with (heap K V s); auto.
      apply Hpay. intro; subst. apply Hxp. apply in_or_app; auto.
    + apply Forall_app in B. destruct B as [B _]. apply Forall_forall. intros y Hy. rewrite Forall_forall in B.
      apply blank_pay with (heap K V s); auto. apply Hpay. intro; subst. apply Hxp. apply in_or_app; auto.
    + cbn. constructor; auto.
    + rewrite <- L. cbn. rewrite !app_length. cbn. lia.
    + intros kk j. unfold data_set. destruct (keqb kk k) eqn:Ek.
      { apply keqb_spec in Ek; subst. split.
        - intro H. inversion H; subst. exists v. left; auto.
        - intros [w [Hw|Hw]]; [inversion Hw; auto|]. exfalso. apply Hkl.
          apply in_combine_r in Hw. apply in_map_iff. exists (k, w); auto. }
      assert (Hkk : kk <> k) by (intro; subst; rewrite keqb_refl in Ek; discriminate).
      rewrite D. cbn [combine]. split; intros [w Hw]; exists w; [right; auto|].
      destruct Hw as [Hw|Hw]; [inversion Hw; subst; contradiction|auto].
Qed.

(** deleting a present key *)
Lemma Inv_delete : forall cap s l k i, Inv cap s l -> data K V s k = Some i ->
  exists s', delitem K V keqb s k = Ok s' /\ Inv cap s' (al_remove K V keqb l k).
Proof.
  intros cap s l k i HI Hk.
  destruct (Inv_data_Some _ _ _ _ _ HI Hk) as
    (ne & em & t & n1 & n2 & l1 & l2 & v0 & E & R & -> & -> & L1 & L2 & F1 & F2 & Hh & B & ND & L & D & G & NDi).
  rewrite al_remove_split by auto.
  unfold delitem. rewrite Hk. cbv zeta.
  set (h3 := set_value K V (set_key K V (set_empty K V (heap K V s) i true) i None) i None).
  assert (Hptr : forall j, n_next K V (h3 j) = n_next K V (heap K V s j) /\ n_prev K V (h3 j) = n_prev K V (heap K V s j)).
  { intro j. unfold h3, set_value, set_key, set_empty. destruct (Nat.eqb_spec j i); subst; rewrite ?Nat.eqb_refl; cbn; auto.
    all: destruct (Nat.eqb_spec j i); try contradiction; auto. }
  assert (Hpay : forall j, j <> i -> pay (make_first K V (lhead K V s) h3 i) j = pay (heap K V s) j).
  { intros j Hj. rewrite pay_make_first. unfold h3, pay, set_value, set_key, set_empty. destruct (Nat.eqb_spec j i); try contradiction. auto. }
  assert (Hb : blank (make_first K V (lhead K V s) h3 i) i).
  { unfold blank. pose proof (pay_make_first (lhead K V s) h3 i i) as P. unfold pay in P. inversion P as [[P1 P2 P3]]. rewrite P2.
    unfold h3, set_value, set_key, set_empty. rewrite !Nat.eqb_refl. auto. }
  assert (R3 : ring h3 (lhead K V s) t) by (apply ring_heap_eq with (heap K V s); auto; intro; apply Hptr).
  assert (R4 : ring (make_first K V (lhead K V s) h3 i) i (n1 ++ n2 ++ em)).
  { apply isring_to_front with t; auto. rewrite E, <- app_assoc. auto. }
  set (h4 := make_first K V (lhead K V s) h3 i) in *.
  assert (Hi : ~ In i (n1 ++ n2 ++ em)).
  { rewrite <- app_assoc in NDi. cbn [app] in NDi. apply NoDup_remove_2 in NDi. auto. }
  eexists. split; [reflexivity|].
  assert (Hring : exists t', n_next K V (h4 i) :: t' = (n1 ++ n2) ++ em ++ [i] /\ ring h4 (n_next K V (h4 i)) t').
  { destruct (n1 ++ n2 ++ em) as [|b q] eqn:Eb.
    - assert (n1 = [] /\ n2 = [] /\ em = []) as [-> [-> ->]].
      { apply app_eq_nil in Eb. destruct Eb as [? Eb]. apply app_eq_nil in Eb. tauto. }
      assert (n_next K V (h4 i) = i) by (destruct R4 as [Rc _]; cbn in Rc; tauto).
      rewrite H. exists []. split; auto.
    - assert (n_next K V (h4 i) = b) by (destruct R4 as [Rc _]; cbn in Rc; tauto).
      rewrite H. exists (q ++ [i]). split.
      + rewrite <- app_assoc. rewrite (app_assoc n2), (app_assoc n1), Eb. auto.
      + apply ring_rotate_back; auto. }
  destruct Hring as [t' [Et' Rt']].
  exists (n1 ++ n2), (em ++ [i]), t'. cbn [heap lhead data].
  split; auto. split; auto.
  split; [|split; [|split; [|split]]].
  - apply Forall2_app; (eapply Forall2_impl_in; [|eauto]); intros x y Hx Hy; apply holds_pay with (heap K V s); auto;
      apply Hpay; intro; subst; apply Hi; apply in_or_app; auto. right; apply in_or_app; auto.
  - apply Forall_app. split; [|constructor; auto]. apply Forall_forall. intros x Hx. rewrite Forall_forall in B.
    apply blank_pay with (heap K V s); auto. apply Hpay. intro; subst; apply Hi; apply in_or_app; right; apply in_or_app; auto.
  - apply (NoDup_front l1 l2 k v0 v0) in ND. cbn [map] in ND. inversion ND; auto.
  - rewrite <- L. rewrite !app_length. cbn [length]. rewrite ?app_length. lia.
  - intros kk j. unfold data_set.
    apply (NoDup_front l1 l2 k v0 v0) in ND. cbn [map fst] in ND. inversion ND; subst.
    destruct (keqb kk k) eqn:Ek.
    + apply keqb_spec in Ek; subst. split; [discriminate|]. intros [w Hw]. exfalso. apply H1.
      apply in_combine_r in Hw. apply in_map_iff. exists (k, w); auto.
    + assert (Hkk : kk <> k) by (intro; subst; rewrite keqb_refl in Ek; discriminate).
      rewrite D. rewrite (data_front n1 n2 i l1 l2 k v0 v0) by auto. cbn [combine].
      split; intros [w Hw]; exists w; [|right; auto]. destruct Hw as [Hw|Hw]; [inversion Hw; subst; contradiction|auto].
Qed.

(** ** Initial state *)
Lemma init_ring : forall size h m, ring h 0 m -> (forall x, In x m -> x < size) -> 0 < size -> length m = size - 1 ->
  ring (init_step K V h size) 0 (m ++ [size]).
Proof.
  intros size h m R Hlt Hs Hl.
  assert (Hx : ~ In size (0 :: m)) by (intros [H|H]; [lia|apply Hlt in H; lia]).
  destruct R as [Hc Hnd].
  destruct (list_last_split 0 m) as [p [t Et]].
  change (0 :: m ++ [0]) with ((0 :: m) ++ [0]) in Hc. rewrite Et, <- app_assoc in Hc. cbn [app] in Hc.
  apply chain_app in Hc. destruct Hc as [Hpt Hc]. cbn [chain] in Hc. destruct Hc as [Hth [Hht _]].
  assert (Htx : t <> size). { intro; subst. apply Hx. rewrite Et. apply in_or_app; right; left; auto. }
  assert (Hhx : 0 <> size) by lia.
  assert (Htp : ~ In t p).
  { rewrite Et in Hnd. apply NoDup_remove_2 in Hnd. rewrite app_nil_r in Hnd. auto. }
  unfold init_step. cbv zeta. set (h1 := set_next K V h size 0).
  assert (A1 : n_prev K V (h1 0) = t) by (unfold h1; rewrite set_next_prev; auto).
  rewrite A1. set (h2 := set_prev K V h1 size t).
  assert (A2 : n_prev K V (h2 0) = t).
  { unfold h2. rewrite set_prev_prev. destruct (Nat.eqb_spec 0 size); [lia|auto]. }
  rewrite A2.
  set (h' := set_prev K V (set_next K V h2 t size) 0 size).
  assert (Nn : forall j, n_next K V (h' j) = if Nat.eqb j t then size else if Nat.eqb j size then 0 else n_next K V (h j)).
  { intro j. unfold h', h2, h1. rewrite set_prev_next, set_next_next, set_prev_next, set_next_next. auto. }
  assert (Np : forall j, n_prev K V (h' j) = if Nat.eqb j 0 then size else if Nat.eqb j size then t else n_prev K V (h j)).
  { intro j. unfold h', h2, h1. rewrite set_prev_prev, set_next_prev, set_prev_prev, set_next_prev. auto. }
  clear A1 A2 Hth Hht. clearbody h'. clear h1 h2.
  split.
  - replace (0 :: (m ++ [size]) ++ [0]) with (p ++ t :: size :: [0]).
    2:{ rewrite <- app_assoc. change (0 :: m ++ [size] ++ [0]) with ((0 :: m) ++ [size; 0]).
        rewrite Et, <- app_assoc. reflexivity. }
    apply chain_app. split.
    + apply chain_frame with h; auto.
      * intros y Hy. rewrite removelast_app in Hy by discriminate. cbn in Hy. rewrite app_nil_r in Hy.
        rewrite Nn. destruct (Nat.eqb_spec y t); [subst; contradiction|].
        destruct (Nat.eqb_spec y size); auto. subst. exfalso. apply Hx. rewrite Et. apply in_or_app; auto.
      * intros y Hy. rewrite <- Et in Hy. cbn [tl] in Hy. rewrite Np.
        destruct (Nat.eqb_spec y 0).
        { subst. inversion Hnd; subst; contradiction. }
        destruct (Nat.eqb_spec y size); auto. subst. exfalso. apply Hx. right; auto.
    + cbn [chain]. rewrite !Nn, !Np, !Nat.eqb_refl.
      destruct (Nat.eqb_spec size t); [congruence|]. destruct (Nat.eqb_spec size 0); [congruence|].
      destruct (Nat.eqb_spec 0 t); auto.
  - change (0 :: m ++ [size]) with ((0 :: m) ++ [size]).
    apply (NoDup_Add (a:=size) (l:=0 :: m)).
    + rewrite <- (app_nil_r (0 :: m)) at 1. apply Add_app.
    + split; auto.
Qed.

Lemma init_all : forall size h m s0, ring h 0 m -> (forall x, In x m -> x < s0) -> 0 < s0 -> length m = s0 - 1 ->
  (forall i, n_empty K V (h i) = true) ->
  exists m', ring (fold_left (init_step K V) (seq s0 size) h) 0 m' /\ length m' = length m + size /\
    (forall i, n_empty K V (fold_left (init_step K V) (seq s0 size) h i) = true).
Proof.
  induction size; intros h m s0 R Hlt Hs Hl He.
  - cbn. exists m. split; auto.
  - cbn [seq fold_left].
    destruct (IHsize (init_step K V h s0) (m ++ [s0]) (S s0)) as [m' [H1 [H2 H3]]].
    + apply init_ring; auto.
    + intros x Hx. apply in_app_or in Hx. destruct Hx as [Hx|[Hx|[]]]; [apply Hlt in Hx|]; lia.
    + lia.
    + rewrite app_length. cbn. lia.
    + intro i. unfold init_step. cbv zeta.
      pose proof (fun h i v j => pay_set_next h i v j) as P1. pose proof (fun h i v j => pay_set_prev h i v j) as P2.
      assert (Hpe : forall h h' j, pay h' j = pay h j -> n_empty K V (h' j) = n_empty K V (h j)).
      { intros. unfold pay in H. inversion H; auto. }
      erewrite Hpe; [apply He|]. rewrite P2, P1, P2, P1. reflexivity.
    + exists m'. split; auto. rewrite app_length in H2. cbn in H2. split; [lia|auto].
Qed.

Lemma Inv_init : forall size, Inv (S size) (init K V size) [].
Proof.
  intros. unfold init.
  destruct (init_all size (fun _ => mknode K V 0 0 None true None) [] 1) as [m' [H1 [H2 H3]]]; auto.
  - split.
    + cbn. auto.
    + constructor; [intros []|constructor].
  - intros x [].
  - exists [], (0 :: m'), m'. cbn [lhead heap data app]. split; auto. split; auto. split; [constructor|].
    split; [apply Forall_forall; intros; apply H3|]. split; [constructor|]. split; [cbn in *; lia|].
    intros; split; [discriminate|intros [v []]].
Qed.

Lemma Inv_len : forall cap s l, Inv cap s l -> length l <= cap.
Proof.
  intros cap s l (ne & em & t & E & R & F & B & ND & L & D). apply Forall2_len in F.
  rewrite app_length in L. lia.
Qed.

Lemma step_refines : forall cap s l o, 0 < cap -> Inv cap s l ->
  let '(s', r) := step K V keqb s o in
  let '(l', r') := spec_step K V keqb cap l o in
  r = r' /\ Inv cap s' l'.
Proof.
  intros cap s l o Hcap HI. destruct o as [k v|k|k|k]; cbn [step spec_step].
  - destruct (data K V s k) as [i|] eqn:Hk.
    + destruct (Inv_get _ _ _ _ _ HI Hk) as [v' [G _]]. rewrite G.
      unfold setitem. rewrite Hk. split; auto. apply Inv_touch; auto.
    + rewrite (Inv_data_None _ _ _ _ HI Hk).
      destruct (Inv_insert _ _ _ k v Hcap HI Hk) as [s' [H1 H2]]. rewrite H1. auto.
  - unfold get. destruct (data K V s k) as [i|] eqn:Hk.
    + destruct (Inv_get _ _ _ _ _ HI Hk) as [v' [G [Hv HI']]]. rewrite G. cbv zeta. rewrite Hv. auto.
    + rewrite (Inv_data_None _ _ _ _ HI Hk). auto.
  - destruct (data K V s k) as [i|] eqn:Hk.
    + destruct (Inv_get _ _ _ _ _ HI Hk) as [v' [G _]]. rewrite G.
      destruct (Inv_delete _ _ _ _ _ HI Hk) as [s' [H1 H2]]. rewrite H1. auto.
    + rewrite (Inv_data_None _ _ _ _ HI Hk). unfold delitem. rewrite Hk. auto.
  - unfold contains. destruct (data K V s k) as [i|] eqn:Hk.
    + destruct (Inv_get _ _ _ _ _ HI Hk) as [v' [G _]]. rewrite G. auto.
    + rewrite (Inv_data_None _ _ _ _ HI Hk). auto.
Qed.

Lemma run_refines : forall cap os s l, 0 < cap -> Inv cap s l ->
  snd (run K V keqb s os) = snd (spec_run K V keqb cap l os) /\
  Inv cap (fst (run K V keqb s os)) (fst (spec_run K V keqb cap l os)).
Proof.
  intros cap os. induction os as [|o os IH]; intros s l Hcap HI; cbn [run spec_run]; auto.
  pose proof (step_refines cap s l o Hcap HI) as H.
  destruct (step K V keqb s o) as [s1 r]. destruct (spec_step K V keqb cap l o) as [l1 r1]. destruct H as [-> HI1].
  specialize (IH s1 l1 Hcap HI1).
  destruct (run K V keqb s1 os) as [s2 rs]. destruct (spec_run K V keqb cap l1 os) as [l2 rs']. cbn in *.
  destruct IH as [-> HI2]. auto.
Qed.

(** properties of the ideal cache, so that the specification itself can be read as a bounded map *)
Lemma spec_step_bounded : forall cap l o, 0 < cap -> length l <= cap -> NoDup (map fst l) ->
  length (fst (spec_step K V keqb cap l o)) <= cap /\ NoDup (map fst (fst (spec_step K V keqb cap l o))).
Proof.
  intros cap l o Hc Hl Hnd.
  assert (Hrem : forall k v, al_get K V keqb l k = Some v ->
    length (al_remove K V keqb l k) < cap /\ NoDup (k :: map fst (al_remove K V keqb l k))).
  { intros k v H. apply al_get_In in H. apply in_split in H. destruct H as [l1 [l2 ->]].
    rewrite al_remove_split by auto. split.
    - rewrite app_length in *. cbn in Hl. lia.
    - apply (NoDup_front l1 l2 k v v) in Hnd. exact Hnd. }
  destruct o as [k v|k|k|k]; cbn [spec_step].
  - destruct (al_get K V keqb l k) eqn:E; cbn [fst length map].
    + destruct (Hrem _ _ E). split; auto; lia.
    + split.
      * rewrite firstn_length. lia.
      * apply al_get_None in E. constructor.
        -- intro H. apply E. rewrite <- (firstn_skipn (cap - 1) l). rewrite map_app. apply in_or_app; auto.
        -- rewrite <- (firstn_skipn (cap - 1) l), map_app in Hnd. apply NoDup_app_remove_r in Hnd. auto.
  - destruct (al_get K V keqb l k) eqn:E; cbn [fst length map]; auto. destruct (Hrem _ _ E). split; auto; lia.
  - destruct (al_get K V keqb l k) eqn:E; cbn [fst]; auto. destruct (Hrem _ _ E) as [H1 H2]. inversion H2; subst. split; auto; lia.
  - auto.
Qed.
End P.
