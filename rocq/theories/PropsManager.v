(** C66: whoever asks for an object gets the one in memory, and saving stores it. *)
From Verif Require Import Base TypesModel ManagerModel.
From Coq Require Import ZArith List Bool Lia.
Import ListNotations.
Open Scope Z_scope.

(** ** Specification: the same program over objects that are never out of memory *)

(** Where each object is, what it holds, and what is at each place; None is a place nothing refers to. *)
Record ideal := Ideal { where_ : Z -> option Z; holds : Z -> Z; now : Z -> option Z }.
Definition upd {A} (f : Z -> A) (k : Z) (v : A) : Z -> A := fun j => if j =? k then v else f j.
Definition think (s : ideal) (e : mop * result Z) : ideal :=
  match e with
  | (Get p, Ok i) => Ideal (upd (where_ s) i (Some p)) (match now s p with Some v => upd (holds s) i v | None => holds s end) (now s)
  | (New v, Ok i) => Ideal (upd (where_ s) i None) (upd (holds s) i v) (now s)
  | (Put i v, Ok _) => Ideal (where_ s) (upd (holds s) i v)
      (match where_ s i with Some p => match now s p with Some _ => upd (now s) p (Some v) | None => now s end | None => now s end)
  | (Attach i p, Ok _) => Ideal (upd (where_ s) i (Some p)) (holds s) (upd (now s) p (Some (holds s i)))
  | (Detach i, Ok _) => Ideal (upd (where_ s) i None) (holds s) (match where_ s i with Some p => upd (now s) p None | None => now s end)
  | (Leave p, Ok _) => Ideal (where_ s) (holds s) (upd (now s) p None)
  | (Collect i, Ok 1) => Ideal (upd (where_ s) i None) (holds s) (now s)
  | _ => s
  end.
(** The program asks only for what something refers to, and puts an object only where no other is attached. *)
Definition sound (s : ideal) (o : mop) : Prop :=
  match o with
  | Get p => now s p <> None
  | Attach i p => forall j, where_ s j <> Some p
  | _ => True
  end.
Definition start (disk : list (Z * Z)) : ideal := Ideal (fun _ => None) (fun _ => 0) (dict_get Z.eqb disk).

Section Claims.
Variables valid indexed : Z -> bool.
(** All histories of a file with the storages [disk]. *)
Inductive reach (ro : bool) (disk : list (Z * Z)) : world -> ideal -> Prop :=
| reach_start : reach ro disk (opened ro disk) (start disk)
| reach_step : forall w s o w' r, reach ro disk w s -> sound s o -> step valid indexed w o = (w', r) -> reach ro disk w' (think s (o, r)).

(** ** Dictionaries *)
Lemma get_set : forall A (l : list (Z * A)) k v j, dict_get Z.eqb (dict_set Z.eqb l k v) j = if j =? k then Some v else dict_get Z.eqb l j.
Proof.
  intros A l k v j. induction l as [|[a b] l IH]; cbn.
  - rewrite Z.eqb_sym. auto.
  - destruct (a =? k) eqn:E; cbn.
    + apply Z.eqb_eq in E. subst a. rewrite (Z.eqb_sym k j). destruct (j =? k); auto.
    + rewrite IH. destruct (a =? j) eqn:F; auto. apply Z.eqb_eq in F. subst a. rewrite E. auto.
Qed.
Lemma get_without : forall A (l : list (Z * A)) k j, dict_get Z.eqb (without l k) j = if j =? k then None else dict_get Z.eqb l j.
Proof.
  intros A l k j. unfold without. induction l as [|[a b] l IH]; cbn.
  - destruct (j =? k); auto.
  - destruct (a =? k) eqn:E; cbn.
    + apply Z.eqb_eq in E. subst a. rewrite IH. rewrite (Z.eqb_sym k j). destruct (j =? k); auto.
    + rewrite IH. destruct (a =? j) eqn:F; auto. apply Z.eqb_eq in F. subst a. rewrite E. auto.
Qed.
Lemma get_In : forall A (l : list (Z * A)) k v, dict_get Z.eqb l k = Some v -> In (k, v) l.
Proof. induction l as [|[a b] l IH]; cbn; intros k v E; [discriminate|]. destruct (a =? k) eqn:F; [apply Z.eqb_eq in F; subst a; injection E as <-|]; auto. Qed.
Lemma get_None : forall A (l : list (Z * A)) k v, dict_get Z.eqb l k = None -> ~ In (k, v) l.
Proof. induction l as [|[a b] l IH]; cbn; intros k v E; [auto|]. destruct (a =? k) eqn:F; [discriminate|]. intros [[= <- <-]|X]; [rewrite Z.eqb_refl in F; discriminate|]. eapply IH; eauto. Qed.
(** a dictionary in which the values tell the keys *)
Lemma get_unlink : forall (l : list (Z * Z)) i j v, dict_get Z.eqb (unlink l i) j = Some v -> v <> i.
Proof. intros l i j v E. apply get_In in E. apply filter_In in E. destruct E as (_ & E). cbn in E. apply negb_true_iff, Z.eqb_neq in E. auto. Qed.
Lemma get_unlink_keep : forall (l : list (Z * Z)) i j v, dict_get Z.eqb l j = Some v -> v <> i -> dict_get Z.eqb (unlink l i) j = Some v.
Proof.
  induction l as [|[a b] l IH]; cbn; intros i j v E N; [discriminate|]. destruct (a =? j) eqn:F.
  - injection E as <-. apply Z.eqb_neq in N. rewrite N. cbn. rewrite F. auto.
  - destruct (b =? i); cbn; [|rewrite F]; apply IH; auto.
Qed.
Lemma In_set : forall A (l : list (Z * A)) k v x, In x (dict_set Z.eqb l k v) -> x = (k, v) \/ In x l.
Proof. induction l as [|[a b] l IH]; cbn; intros k v x H. { destruct H as [<-|[]]; auto. } destruct (a =? k) eqn:E; cbn in H; destruct H as [<-|H]; auto. apply IH in H. tauto. Qed.
Lemma In_without : forall A (l : list (Z * A)) k x, In x (without l k) -> In x l /\ fst x <> k.
Proof. intros A l k x H. apply filter_In in H. destruct H as (H & E). split; auto. apply negb_true_iff, Z.eqb_neq in E. auto. Qed.
Lemma In_unlink : forall l i x, In x (unlink l i) -> In x l /\ snd x <> i.
Proof. intros l i x H. apply filter_In in H. destruct H as (H & E). split; auto. apply negb_true_iff, Z.eqb_neq in E. auto. Qed.
Lemma In_lru : forall l p i x, In x (lru_set l p i) -> x = (p, i) \/ (In x l /\ fst x <> p).
Proof.
  intros l p i x H. unfold lru_set in H. assert (X : forall n (a : list (Z * Z)), In x (firstn n a) -> In x a). { induction n; destruct a; cbn; intros Y; auto; try tauto. destruct Y; auto. }
  apply X in H. destruct H as [<-|H]; auto. right. apply In_without. auto.
Qed.

(** ** The invariant *)
Record inv (w : world) (s : ideal) : Prop := {
  i_mem : forall i d v, dict_get Z.eqb (w_mem w) i = Some (MObj d v) -> d = where_ s i /\ v = holds s i;
  i_here : forall i p, where_ s i = Some p -> dict_get Z.eqb (w_mem w) i <> None;
  i_next : forall i, w_next w <= i -> dict_get Z.eqb (w_mem w) i = None;
  i_one : forall i j p, where_ s i = Some p -> where_ s j = Some p -> i = j;
  i_cache : forall i p, where_ s i = Some p -> dict_get Z.eqb (w_cache w) p = Some i;
  i_in : forall p i, In (p, i) (w_cache w) \/ In (p, i) (w_lru w) \/ In (p, i) (w_mod w) \/ In (p, i) (w_slot w) -> where_ s i = Some p;
  i_disk : forall i p, where_ s i = Some p -> dict_get Z.eqb (w_mod w) p = None -> dict_get Z.eqb (w_disk w) p = Some (holds s i);
  i_now : forall i p v, where_ s i = Some p -> now s p = Some v -> holds s i = v;
  i_away : forall p v, (forall i, where_ s i <> Some p) -> now s p = Some v -> dict_get Z.eqb (w_disk w) p = Some v }.

Lemma inv_ext : forall w s s', inv w s -> (forall i, where_ s' i = where_ s i) -> (forall i, holds s' i = holds s i) -> (forall p, now s' p = now s p) -> inv w s'.
Proof.
  intros w s s' [A B C D E F G H I] X Y Z. split; intros; rewrite ?X, ?Y, ?Z in *; eauto.
  - apply I; auto. intros i Q. apply (H0 i). rewrite X. auto.
Qed.
Lemma inv_start : forall ro disk, inv (opened ro disk) (start disk).
Proof. intros ro disk. split; cbn; intros; try discriminate; auto. intuition. Qed.

(** changes of the fields that do not matter *)
Lemma inv_hold : forall w s l, inv w s -> inv (set_held w l) s.
Proof. intros w s l [A B C D E F G H I]. split; cbn; auto. Qed.
Lemma inv_slot : forall w s l, inv w s -> (forall x, In x l -> where_ s (snd x) = Some (fst x)) -> inv (set_slot w l) s.
Proof. intros w s l [A B C D E F G H I] X. split; cbn; auto. intros p i [Y|[Y|[Y|Y]]]; auto. apply (X _ Y). Qed.
Lemma slot_in : forall w s x, inv w s -> In x (w_slot w) -> where_ s (snd x) = Some (fst x).
Proof. intros w s [p i] H X. apply (i_in w s H). auto. Qed.

(** marking an object that is at its place *)
Lemma inv_mark : forall w s p i, inv w s -> where_ s i = Some p -> inv (add_modified w p i) s.
Proof.
  intros w s p i H W. pose proof H as [A B C D E F G K I]. unfold add_modified, setitem. split; cbn; auto.
  - intros j q Q. rewrite get_set. destruct (Z.eqb_spec q p) as [->|N]; auto. f_equal. apply (D i j p); auto.
  - intros q j X. assert (Y : (q, j) = (p, i) \/ In (q, j) (w_cache w) \/ In (q, j) (w_lru w) \/ In (q, j) (w_mod w) \/ In (q, j) (w_slot w)).
    { destruct X as [X|[X|[X|X]]]; auto. - apply In_set in X. tauto. - apply In_lru in X. tauto. - apply In_set in X. tauto. }
    destruct Y as [[= -> ->]|Y]; auto.
  - intros j q Q X. rewrite get_set in X. destruct (Z.eqb_spec q p) as [->|N]; [discriminate|]. auto.
Qed.

Lemma get_step : forall w s p w' r, inv w s -> now s p <> None -> get_value w p = (w', r) ->
  inv w' (think s (Get p, r)) /\ exists i v, r = Ok i /\ now s p = Some v /\ dict_get Z.eqb (w_mem w') i = Some (MObj (Some p) v) /\ (forall j, where_ s j = Some p -> j = i) /\ (forall j o, dict_get Z.eqb (w_mem w) j = Some o -> dict_get Z.eqb (w_mem w') j = Some o).
Proof.
  intros w s p w' r H NP E. destruct (now s p) as [v|] eqn:NV; [|congruence]. clear NP.
  assert (HIT : forall i, where_ s i = Some p -> inv w (think s (Get p, Ok i)) /\ dict_get Z.eqb (w_mem w) i = Some (MObj (Some p) v)).
  { intros i W. pose proof (i_now w s H _ _ _ W NV) as HV. split.
    - apply (inv_ext w s); auto; cbn; rewrite ?NV; intros j; unfold upd; destruct (Z.eqb_spec j i) as [->|N]; auto.
    - pose proof (i_here w s H _ _ W) as X. destruct (dict_get Z.eqb (w_mem w) i) as [[d u]|] eqn:G; [|congruence]. destruct (i_mem w s H _ _ _ G) as (-> & ->). rewrite W, HV. auto. }
  unfold get_value in E. destruct (dict_get Z.eqb (w_slot w) p) as [i|] eqn:ES.
  - injection E as <- <-. assert (W : where_ s i = Some p). { apply (i_in w s H). right. right. right. apply get_In. auto. } destruct (HIT i W) as (X & Y). split; [apply inv_hold; auto|].
    exists i, v. cbn. repeat split; auto. intros j J. eapply (i_one w s H); eauto.
  - unfold read_object in E. destruct (dict_get Z.eqb (w_cache w) p) as [i|] eqn:EC.
    + injection E as <- <-. assert (W : where_ s i = Some p). { apply (i_in w s H). left. apply get_In. auto. } destruct (HIT i W) as (X & Y). split.
      * apply inv_hold. apply inv_slot; auto. intros x I. cbn. rewrite ?NV. cbn. unfold upd. apply In_set in I. destruct I as [->|I]; cbn; [rewrite Z.eqb_refl; auto|]. destruct (Z.eqb_spec (snd x) i) as [E|N]; [|eapply slot_in; eauto]. rewrite <- W, <- E. symmetry. symmetry. rewrite (slot_in w s x H I). auto.
      * exists i, v. cbn. repeat split; auto. intros j J. eapply (i_one w s H); eauto.
    + assert (AW : forall i, where_ s i <> Some p). { intros i W. rewrite (i_cache w s H _ _ W) in EC. discriminate. }
      rewrite (i_away w s H p v AW NV) in E. injection E as <- <-. set (i := w_next w) in *. assert (MI : dict_get Z.eqb (w_mem w) i = None) by (apply (i_next w s H); unfold i; lia).
      assert (WI : where_ s i = None). { destruct (where_ s i) as [q|] eqn:Q; auto. apply (i_here w s H) in Q. congruence. }
      pose proof H as [A B C D E F G K I]. split.
      * split; cbn; rewrite ?NV; cbn.
        -- intros j d u. rewrite get_set. unfold upd. destruct (Z.eqb_spec j i) as [->|N]; [intros [= <- <-]; auto|]. apply A.
        -- intros j q. rewrite get_set. unfold upd. destruct (Z.eqb_spec j i) as [->|N]; [discriminate|]. apply B.
        -- intros j J. rewrite get_set. destruct (Z.eqb_spec j i) as [->|N]; [unfold i in *; lia|]. apply C. unfold i in *. lia.
        -- intros a b q. unfold upd. destruct (Z.eqb_spec a i) as [->|N1]; destruct (Z.eqb_spec b i) as [->|N2]; auto; intros X Y; try (injection X as <-); try (injection Y as <-); [exfalso; eapply AW; eauto|exfalso; eapply AW; eauto|eapply D; eauto].
        -- intros j q. unfold upd. rewrite get_set. destruct (Z.eqb_spec j i) as [->|N]. { intros [= <-]. rewrite Z.eqb_refl. auto. } intros W. destruct (Z.eqb_spec q p) as [->|N']; [exfalso; eapply AW; eauto|]. auto.
        -- intros q j X. unfold upd. assert (Y : (q, j) = (p, i) \/ (where_ s j = Some q)).
           { destruct X as [X|[X|[X|X]]]; [apply In_set in X|apply In_lru in X| |apply In_set in X]; intuition. } destruct Y as [[= -> ->]|Y]; [rewrite Z.eqb_refl; auto|]. destruct (Z.eqb_spec j i) as [->|N]; [congruence|auto].
        -- intros j q. unfold upd. destruct (Z.eqb_spec j i) as [->|N]; [|auto]. intros [= <-] _. apply (I p v AW NV).
        -- intros j q u. unfold upd. destruct (Z.eqb_spec j i) as [->|N]; [|eauto]. intros [= <-] X. congruence.
        -- intros q u X Y. apply (I q u); auto. intros j J. apply (X j). unfold upd. destruct (Z.eqb_spec j i) as [->|N]; [congruence|auto].
      * exists i, v. cbn. rewrite get_set, Z.eqb_refl. repeat split; auto; [intros j J; exfalso; eapply AW; eauto|]. intros j o J. rewrite get_set. destruct (Z.eqb_spec j i) as [->|N]; [congruence|auto].
Qed.

(** What the loop of write_objects does: the objects of the list are stored, nothing else changes. *)
Lemma write_inv : forall s l w w' r, inv w s -> (forall p i, In (p, i) l -> where_ s i = Some p) -> write_loop valid indexed l w = (w', r) ->
  inv w' s /\ w_mem w' = w_mem w /\ w_ro w' = w_ro w /\ (forall p i, In (p, i) (w_mod w') -> In (p, i) (w_mod w) \/ In (p, i) l) /\
  (forall p i, where_ s i = Some p -> dict_get Z.eqb (w_disk w) p = Some (holds s i) -> dict_get Z.eqb (w_disk w') p = Some (holds s i)) /\
  (r = Ok 0 -> forall p i, In (p, i) l -> dict_get Z.eqb (w_disk w') p = Some (holds s i)).
Proof.
  intros s l. induction l as [|[p i] l IH]; intros w w' r H L E; cbn in E.
  - injection E as <- <-. split; [auto|]. split; [auto|]. split; [auto|]. split; [auto|]. split; [auto|]. intros _ p i [].
  - assert (W : where_ s i = Some p) by (apply L; left; auto). pose proof (i_here w s H _ _ W) as X. destruct (dict_get Z.eqb (w_mem w) i) as [[d v]|] eqn:G; [|congruence]. destruct (i_mem w s H _ _ _ G) as (-> & ->). rewrite W in E.
    destruct (valid (holds s i)); [|injection E as <- <-; split; [auto|]; split; [auto|]; split; [auto|]; split; [auto|]; split; [auto|]; discriminate].
    set (w1 := set_disk w (dict_set Z.eqb (w_disk w) p (holds s i))) in *.
    assert (H1 : inv w1 s).
    { pose proof H as [A B C D E1 F K I J]. split; auto; unfold w1; cbn.
      - intros j q Q M. rewrite get_set. destruct (Z.eqb_spec q p) as [->|N]; auto. do 2 f_equal. apply (D i j p); auto.
      - intros q u Q M. rewrite get_set. destruct (Z.eqb_spec q p) as [->|N]; [exfalso; eapply Q; eauto|]. auto. }
    assert (K : forall w2, inv w2 s -> w_mem w2 = w_mem w -> w_ro w2 = w_ro w -> w_disk w2 = w_disk w1 -> (forall q j, In (q, j) (w_mod w2) -> In (q, j) (w_mod w) \/ (q, j) = (p, i)) -> write_loop valid indexed l w2 = (w', r) ->
       inv w' s /\ w_mem w' = w_mem w /\ w_ro w' = w_ro w /\ (forall q j, In (q, j) (w_mod w') -> In (q, j) (w_mod w) \/ In (q, j) ((p, i) :: l)) /\
       (forall p i, where_ s i = Some p -> dict_get Z.eqb (w_disk w) p = Some (holds s i) -> dict_get Z.eqb (w_disk w') p = Some (holds s i)) /\
       (r = Ok 0 -> forall q j, In (q, j) ((p, i) :: l) -> dict_get Z.eqb (w_disk w') q = Some (holds s j))).
    { intros w2 H2 M2 R2 D2 O2 E2. destruct (IH _ _ _ H2 (fun q j I => L q j (or_intror I)) E2) as (Y1 & Y2 & Y3 & Y4 & Y5 & Y6).
      assert (DP : forall q j, where_ s j = Some q -> dict_get Z.eqb (w_disk w) q = Some (holds s j) -> dict_get Z.eqb (w_disk w2) q = Some (holds s j)).
      { intros q j Q V. rewrite D2. unfold w1. cbn. rewrite get_set. destruct (Z.eqb_spec q p) as [->|N]; auto. do 2 f_equal. apply (i_one w s H _ _ p); auto. }
      split; [auto|]. split; [congruence|]. split; [congruence|]. split; [|split; [auto|]].
      - intros q j I. apply Y4 in I. cbn. destruct I as [I|I]; auto. apply O2 in I. destruct I as [I|I]; auto.
      - intros R q j [[= <- <-]|I]; auto. apply Y5; auto. rewrite D2. unfold w1. cbn. rewrite get_set, Z.eqb_refl. auto. }
    destruct (indexed (holds s i)).
    + apply (K (add_modified w1 p i)); auto. { apply inv_mark; auto. } intros q j I. cbn in I. apply In_set in I. tauto.
    + apply (K w1); auto.
Qed.
Lemma fold_without : forall (l m : list (Z * Z)) x, In x (fold_left (fun m y => without m (fst y)) l m) -> In x m /\ ~ In (fst x) (map fst l).
Proof. induction l as [|a l IH]; cbn; intros m x H; [auto|]. apply IH in H. destruct H as (H & N). apply In_without in H. destruct H as (H & N'). split; auto. intros [E|E]; auto. Qed.
Lemma get_fold : forall (l m : list (Z * Z)) p, dict_get Z.eqb (fold_left (fun m y => without m (fst y)) l m) p = if existsb (fun y => p =? fst y) l then None else dict_get Z.eqb m p.
Proof. induction l as [|a l IH]; cbn; intros m p; auto. rewrite IH, get_without. destruct (p =? fst a); cbn; auto. destruct (existsb _ l); auto. Qed.
Lemma save_inv : forall w s w' r, inv w s -> save valid indexed w = (w', r) ->
  inv w' s /\ (w_ro w = false -> r = Ok 0 -> w_mod w' = [] /\ forall p v, now s p = Some v -> dict_get Z.eqb (w_disk w') p = Some v).
Proof.
  intros w s w' r H E. unfold save in E. destruct (w_ro w) eqn:RO. { injection E as <- <-. split; auto. discriminate. }
  destruct (write_loop valid indexed (w_mod w) w) as [w1 x] eqn:EW. destruct (write_inv s _ _ _ _ H (fun p i I => i_in w s H p i (or_intror (or_intror (or_introl I)))) EW) as (H1 & M1 & R1 & O1 & D1 & S1).
  destruct x as [z|e]; injection E as <- <-; [|split; auto; discriminate].
  assert (X : z = 0). { clear - EW. revert EW. generalize w at 2. generalize (w_mod w). induction l as [|[p i] l IH]; cbn; intros w0 E; [injection E; auto|]. destruct (dict_get Z.eqb (w_mem w0) i) as [[[q|] v]|]; try discriminate. destruct (valid v); try discriminate. eapply IH; eauto. } subst z. specialize (S1 eq_refl).
  set (w2 := set_mod w1 _).
  assert (E2 : w_mod w2 = []). { unfold w2. cbn. destruct (fold_left _ (w_mod w) (w_mod w1)) as [|x t] eqn:F; auto. exfalso. assert (I : In x (fold_left (fun m y => without m (fst y)) (w_mod w) (w_mod w1))) by (rewrite F; left; auto). apply fold_without in I. destruct x as [p i]. destruct I as (I & N). apply N. cbn. apply O1 in I. destruct I as [I|I]; apply (in_map fst) in I; auto. }
  assert (I2 : inv w2 s).
  { pose proof H1 as [A B C D E F K I J]. split; auto.
    - intros p i X. rewrite E2 in X. apply F. unfold w2 in X. cbn in X. tauto.
    - intros i p W _. destruct (dict_get Z.eqb (w_mod w) p) as [j|] eqn:G.
      + apply get_In in G. pose proof (i_in w s H p j (or_intror (or_intror (or_introl G)))) as Q. rewrite (D _ _ _ W Q). apply S1. auto.
      + apply D1; auto. apply (i_disk w s H); auto. }
  split; auto. intros _ _. split; auto. intros p v N. destruct (dict_get Z.eqb (w_cache w2) p) as [i|] eqn:G.
  - apply get_In in G. pose proof (i_in w2 s I2 p i (or_introl G)) as W. rewrite <- (i_now w2 s I2 _ _ _ W N). apply (i_disk w2 s I2); auto. rewrite E2. auto.
  - apply (i_away w2 s I2); auto. intros i W. rewrite (i_cache w2 s I2 _ _ W) in G. discriminate.
Qed.

Lemma step_inv : forall w s o w' r, inv w s -> sound s o -> step valid indexed w o = (w', r) -> inv w' (think s (o, r)).
Proof.
  intros w s o w' r H SO E. destruct o as [p|v|i v|i p|i|p|p|i|i|]; cbn [step] in E.
  - cbn [sound] in SO. apply (get_step w s p w' r H SO E).
  - injection E as <- <-. set (i := w_next w) in *. pose proof H as [A B C D E F K I J]. assert (MI : dict_get Z.eqb (w_mem w) i = None) by (apply C; unfold i; lia).
    assert (WI : where_ s i = None). { destruct (where_ s i) as [q|] eqn:Q; auto. apply B in Q. congruence. }
    assert (WN : forall j, upd (where_ s) i None j = where_ s j). { intros j. unfold upd. destruct (Z.eqb_spec j i) as [->|N]; auto. }
    assert (HN : forall j q, where_ s j = Some q -> upd (holds s) i v j = holds s j). { intros j q Q. unfold upd. destruct (Z.eqb_spec j i) as [->|N]; auto. congruence. }
    split; cbn; intros *; rewrite ?WN; auto.
    + rewrite get_set. unfold upd. destruct (Z.eqb_spec i0 i) as [->|N]; [intros [= <- <-]; auto|apply A].
    + rewrite get_set. destruct (Z.eqb_spec i0 i) as [->|N]; [discriminate|apply B].
    + intros X. rewrite get_set. destruct (Z.eqb_spec i0 i) as [->|N]; [unfold i in *; lia|apply C; unfold i in *; lia].
    + apply D.
    + intros W M. rewrite (HN _ _ W). auto.
    + intros W M. rewrite (HN _ _ W). eauto.
    + intros X. apply J. intros j Q. apply (X j). rewrite WN. auto.
  - destruct (w_ro w); [injection E as <- <-; auto|]. destruct (dict_get Z.eqb (w_mem w) i) as [[d u]|] eqn:G; [|injection E as <- <-; auto]. injection E as <- <-. destruct (i_mem w s H _ _ _ G) as (-> & ->).
    set (w1 := set_mem w (dict_set Z.eqb (w_mem w) i (MObj (where_ s i) v))). pose proof H as [A B C D E F K I J]. cbn [think].
    assert (M1 : forall j d u, dict_get Z.eqb (w_mem w1) j = Some (MObj d u) -> d = where_ s j /\ u = upd (holds s) i v j).
    { intros j d u. unfold w1. cbn. rewrite get_set. unfold upd. destruct (Z.eqb_spec j i) as [->|N]; [intros [= <- <-]; auto|apply A]. }
    assert (M2 : forall j q, where_ s j = Some q -> dict_get Z.eqb (w_mem w1) j <> None).
    { intros j q. unfold w1. cbn. rewrite get_set. destruct (Z.eqb_spec j i) as [->|N]; [discriminate|apply B]. }
    assert (M3 : forall j, w_next w1 <= j -> dict_get Z.eqb (w_mem w1) j = None).
    { intros j X. unfold w1 in *. cbn in *. rewrite get_set. destruct (Z.eqb_spec j i) as [->|N]; auto. rewrite C in G; auto. discriminate. }
    destruct (where_ s i) as [p|] eqn:W.
    + unfold add_modified, setitem. split; cbn; auto.
      * intros j q Q. rewrite get_set. destruct (Z.eqb_spec q p) as [->|N]; auto. f_equal. apply (D i j p); auto.
      * intros q j X. assert (Y : (q, j) = (p, i) \/ In (q, j) (w_cache w) \/ In (q, j) (w_lru w) \/ In (q, j) (w_mod w) \/ In (q, j) (w_slot w)).
        { destruct X as [X|[X|[X|X]]]; auto. - apply In_set in X. tauto. - apply In_lru in X. tauto. - apply In_set in X. tauto. }
        destruct Y as [[= -> ->]|Y]; auto.
      * intros j q Q X. rewrite get_set in X. destruct (Z.eqb_spec q p) as [->|N]; [discriminate|]. unfold upd. destruct (Z.eqb_spec j i) as [->|N']; [congruence|]. auto.
      * intros j q u Q. destruct (now s p) as [z|] eqn:NP; unfold upd.
        -- destruct (Z.eqb_spec q p) as [->|N]. { intros [= <-]. assert (j = i) by (eapply D; eauto). subst j. rewrite Z.eqb_refl. auto. } destruct (Z.eqb_spec j i) as [->|N']; [congruence|]. eauto.
        -- intros X. destruct (Z.eqb_spec j i) as [->|N']; [congruence|]. eauto.
      * intros q u X. destruct (now s p) as [z|] eqn:NP; [unfold upd|auto]. destruct (Z.eqb_spec q p) as [->|N]; [exfalso; eapply X; eauto|]. auto.
    + split; auto.
      * cbn. intros j q Q M. unfold upd. destruct (Z.eqb_spec j i) as [->|N]; [congruence|]. auto.
      * cbn. intros j q u Q M. unfold upd. destruct (Z.eqb_spec j i) as [->|N]; [congruence|]. eauto.
  - destruct (w_ro w); [injection E as <- <-; auto|]. destruct (dict_get Z.eqb (w_mem w) i) as [[[d|] u]|] eqn:G; [injection E as <- <-; auto| |injection E as <- <-; auto]. injection E as <- <-. destruct (i_mem w s H _ _ _ G) as (W & ->). symmetry in W.
    pose proof H as [A B C D E F K I J]. cbn [sound] in SO. cbn [think]. set (d' := match dict_get Z.eqb (w_disk w) p with Some _ => _ | None => _ end).
    assert (DD : exists dk, d' = set_disk (set_mem w (dict_set Z.eqb (w_mem w) i (MObj (Some p) (holds s i)))) dk /\ forall q, q <> p -> dict_get Z.eqb dk q = dict_get Z.eqb (w_disk w) q).
    { unfold d'. cbn. destruct (dict_get Z.eqb (w_disk w) p). - exists (w_disk w). auto. - eexists. split; [reflexivity|]. intros q N. rewrite get_set. apply Z.eqb_neq in N. rewrite N. auto. }
    destruct DD as (dk & -> & DK). unfold add_modified, setitem. split; cbn.
    + intros j d v. rewrite get_set. unfold upd. destruct (Z.eqb_spec j i) as [->|N]; [intros [= <- <-]; auto|apply A].
    + intros j q. rewrite get_set. unfold upd. destruct (Z.eqb_spec j i) as [->|N]; [discriminate|apply B].
    + intros j X. rewrite get_set. destruct (Z.eqb_spec j i) as [->|N]; auto. rewrite C in G; auto. discriminate.
    + intros a b q. unfold upd. destruct (Z.eqb_spec a i) as [->|N1]; destruct (Z.eqb_spec b i) as [->|N2]; auto; intros X Y; try (injection X as <-); try (injection Y as <-); [exfalso; eapply SO; eauto|exfalso; eapply SO; eauto|eapply D; eauto].
    + intros j q. unfold upd. rewrite get_set. destruct (Z.eqb_spec j i) as [->|N]. { intros [= <-]. rewrite Z.eqb_refl. auto. } intros Q. destruct (Z.eqb_spec q p) as [->|N']; [exfalso; eapply SO; eauto|]. auto.
    + intros q j X. unfold upd. assert (Y : (q, j) = (p, i) \/ (where_ s j = Some q)).
      { destruct X as [X|[X|[X|X]]]; [apply In_set in X|apply In_lru in X|apply In_set in X|apply In_set in X]; intuition. } destruct Y as [[= -> ->]|Y]; [rewrite Z.eqb_refl; auto|]. destruct (Z.eqb_spec j i) as [->|N]; [congruence|auto].
    + intros j q. unfold upd. rewrite get_set. destruct (Z.eqb_spec j i) as [->|N]. { intros [= <-]. rewrite Z.eqb_refl. discriminate. } intros Q. destruct (Z.eqb_spec q p) as [->|N']; [discriminate|]. intros M. rewrite DK; auto.
    + intros j q v. unfold upd. destruct (Z.eqb_spec j i) as [->|N]. { intros [= <-]. rewrite Z.eqb_refl. congruence. } intros Q. destruct (Z.eqb_spec q p) as [->|N']; [exfalso; eapply SO; eauto|]. eauto.
    + intros q v X. unfold upd in *. destruct (Z.eqb_spec q p) as [->|N]. { exfalso. apply (X i). rewrite Z.eqb_refl. auto. } intros Y. rewrite DK; auto. apply J; auto. intros j Q. apply (X j). destruct (Z.eqb_spec j i) as [->|N']; [congruence|auto].
  - destruct (w_ro w); [injection E as <- <-; auto|]. destruct (dict_get Z.eqb (w_mem w) i) as [[[p|] u]|] eqn:G; injection E as <- <-; cbn [think]; try exact H.
    + destruct (i_mem w s H _ _ _ G) as (W & ->). symmetry in W. rewrite W. pose proof H as [A B C D E F K I J].
      assert (OT : forall j q, j <> i -> where_ s j = Some q -> q <> p). { intros j q N Q ->. apply N. eapply D; eauto. }
      split; cbn; unfold upd.
      * intros j d v. rewrite get_set. destruct (Z.eqb_spec j i) as [->|N]; [intros [= <- <-]; auto|apply A].
      * intros j q. rewrite get_set. destruct (Z.eqb_spec j i) as [->|N]; [discriminate|apply B].
      * intros j X. rewrite get_set. destruct (Z.eqb_spec j i) as [->|N]; auto. rewrite C in G; auto. discriminate.
      * intros a b q. destruct (Z.eqb_spec a i) as [->|N1]; [discriminate|]. destruct (Z.eqb_spec b i) as [->|N2]; [discriminate|]. apply D.
      * intros j q. destruct (Z.eqb_spec j i) as [->|N]; [discriminate|]. intros Q. rewrite get_without. destruct (Z.eqb_spec q p) as [->|N']; [exfalso; eapply OT; eauto|]. auto.
      * intros q j X. assert (Y : where_ s j = Some q /\ j <> i).
        { destruct X as [X|[X|[X|X]]]; [apply In_without in X|apply In_without in X|apply In_without in X|apply In_unlink in X]; destruct X as (X & N); cbn in N; split; try (apply F; tauto); auto; intros ->; rewrite (F q i) in W by tauto; congruence. }
        destruct Y as (Y & N). apply Z.eqb_neq in N. rewrite N. auto.
      * intros j q. destruct (Z.eqb_spec j i) as [->|N]; [discriminate|]. intros Q. rewrite get_without. destruct (Z.eqb_spec q p) as [->|N']; [exfalso; eapply OT; eauto|]. auto.
      * intros j q v. destruct (Z.eqb_spec j i) as [->|N]; [discriminate|]. intros Q. destruct (Z.eqb_spec q p) as [->|N']; [discriminate|]. eauto.
      * intros q v X. destruct (Z.eqb_spec q p) as [->|N']; [discriminate|]. apply J. intros j Q. apply (X j). destruct (Z.eqb_spec j i) as [->|N]; [congruence|auto].
    + apply inv_hold. destruct (i_mem w s H _ _ _ G) as (W & ->). rewrite <- W. apply (inv_ext w s); auto; cbn. intros j. unfold upd. destruct (Z.eqb_spec j i) as [->|N]; auto.
  - destruct (w_ro w); injection E as <- <-; [auto|]. cbn [think]. assert (H1 : inv (set_slot w (without (w_slot w) p)) s). { apply inv_slot; auto. intros x I. apply In_without in I. eapply slot_in; eauto. apply I. }
    destruct H1 as [A B C D E F K I J]. split; auto; cbn.
    + intros j q v Q. unfold upd. destruct (Z.eqb_spec q p) as [->|N]; [discriminate|]. eauto.
    + intros q v X. unfold upd. destruct (Z.eqb_spec q p) as [->|N]; [discriminate|]. apply J. auto.
  - injection E as <- <-. cbn [think]. apply inv_slot; auto. intros x I. apply In_without in I. eapply slot_in; eauto. apply I.
  - injection E as <- <-. apply inv_hold. auto.
  - destruct (existsb (Z.eqb i) (w_held w) || existsb (fun x => snd x =? i) (w_lru w) || existsb (fun x => snd x =? i) (w_mod w)) eqn:X; injection E as <- <-; [exact H|].
    apply orb_false_iff in X. destruct X as (X & X3). apply orb_false_iff in X. destruct X as (X1 & X2). pose proof H as [A B C D E F K I J]. cbn [think].
    assert (NM : forall p, where_ s i = Some p -> dict_get Z.eqb (w_mod w) p = None).
    { intros p W. destruct (dict_get Z.eqb (w_mod w) p) as [j|] eqn:G; auto. apply get_In in G. assert (j = i) by (eapply D; eauto). subst j. exfalso. assert (Y : existsb (fun x => snd x =? i) (w_mod w) = true); [|congruence]. apply existsb_exists. exists (p, i). split; auto. apply Z.eqb_refl. }
    assert (NI : forall l p, existsb (fun x : Z * Z => snd x =? i) l = false -> ~ In (p, i) l).
    { intros l p Y Z. assert (Y' : existsb (fun x => snd x =? i) l = true); [|congruence]. apply existsb_exists. exists (p, i). split; auto. apply Z.eqb_refl. }
    split; cbn; unfold upd.
    + intros j d v. rewrite get_without. destruct (Z.eqb_spec j i) as [->|N]; [discriminate|apply A].
    + intros j q. rewrite get_without. destruct (Z.eqb_spec j i) as [->|N]; [discriminate|apply B].
    + intros j Y. rewrite get_without. destruct (Z.eqb_spec j i) as [->|N]; auto.
    + intros a b q. destruct (Z.eqb_spec a i) as [->|N1]; [discriminate|]. destruct (Z.eqb_spec b i) as [->|N2]; [discriminate|]. apply D.
    + intros j q. destruct (Z.eqb_spec j i) as [->|N]; [discriminate|]. intros Q. apply get_unlink_keep; auto.
    + intros q j Y. assert (Z : where_ s j = Some q /\ j <> i).
      { destruct Y as [Y|[Y|[Y|Y]]].
        - apply In_unlink in Y. destruct Y as (Y & N). cbn in N. split; [apply F; tauto|auto].
        - split; [apply F; tauto|]. intros ->. exact (NI _ q X2 Y).
        - split; [apply F; tauto|]. intros ->. exact (NI _ q X3 Y).
        - apply In_unlink in Y. destruct Y as (Y & N). cbn in N. split; [apply F; tauto|auto]. }
      destruct Z as (Z & N). apply Z.eqb_neq in N. rewrite N. auto.
    + intros j q. destruct (Z.eqb_spec j i) as [->|N]; [discriminate|]. auto.
    + intros j q v. destruct (Z.eqb_spec j i) as [->|N]; [discriminate|]. eauto.
    + intros q v Y Z. destruct (where_ s i) as [p|] eqn:W; [destruct (Z.eqb_spec q p) as [->|N]|].
      * rewrite <- (I _ _ _ W Z). apply K; auto.
      * apply J; auto. intros j Q. apply (Y j). destruct (Z.eqb_spec j i) as [->|N']; [congruence|auto].
      * apply J; auto. intros j Q. apply (Y j). destruct (Z.eqb_spec j i) as [->|N']; [congruence|auto].
  - apply (save_inv w s w' r H) in E. destruct E as (E & _). cbn. destruct r; auto.
Qed.
Lemma reach_inv : forall ro disk w s, reach ro disk w s -> inv w s.
Proof. intros ro disk w s R. induction R; [apply inv_start|eapply step_inv; eauto]. Qed.
Lemma write_ro : forall l w w' r, write_loop valid indexed l w = (w', r) -> w_ro w' = w_ro w.
Proof. induction l as [|[p i] l IH]; cbn; intros w w' r E. { injection E as <- <-. auto. } destruct (dict_get Z.eqb (w_mem w) i) as [[[q|] v]|]; try (injection E as <- <-; auto; fail). destruct (valid v); [|injection E as <- <-; auto]. apply IH in E. rewrite E. destruct (indexed v); auto. Qed.
Lemma step_ro : forall w o w' r, step valid indexed w o = (w', r) -> w_ro w' = w_ro w.
Proof.
  intros w o w' r E. destruct o as [p|v|i v|i p|i|p|p|i|i|]; cbn [step] in E.
  - unfold get_value, read_object in E. destruct (dict_get Z.eqb (w_slot w) p); [injection E as <- <-; auto|]. destruct (dict_get Z.eqb (w_cache w) p); [injection E as <- <-; auto|]. destruct (dict_get Z.eqb (w_disk w) p); injection E as <- <-; auto.
  - injection E as <- <-; auto.
  - destruct (w_ro w) eqn:RO; [injection E as <- <-; auto|]. destruct (dict_get Z.eqb (w_mem w) i) as [[[d|] u]|]; injection E as <- <-; cbn; auto.
  - destruct (w_ro w) eqn:RO; [injection E as <- <-; auto|]. destruct (dict_get Z.eqb (w_mem w) i) as [[[d|] u]|]; injection E as <- <-; cbn; auto. destruct (dict_get Z.eqb (w_disk w) p); auto.
  - destruct (w_ro w) eqn:RO; [injection E as <- <-; auto|]. destruct (dict_get Z.eqb (w_mem w) i) as [[[d|] u]|]; injection E as <- <-; cbn; auto.
  - destruct (w_ro w) eqn:RO; injection E as <- <-; auto.
  - injection E as <- <-; auto.
  - injection E as <- <-; auto.
  - destruct (_ || _); injection E as <- <-; auto.
  - unfold save in E. destruct (w_ro w) eqn:RO; [injection E as <- <-; auto|]. destruct (write_loop valid indexed (w_mod w) w) as [w1 [z|e]] eqn:EW; apply write_ro in EW; injection E as <- <-; cbn; congruence.
Qed.
Lemma reach_ro : forall ro disk w s, reach ro disk w s -> w_ro w = ro.
Proof. intros ro disk w s R. induction R; auto. apply step_ro in H0. congruence. Qed.
Lemma write_err : forall s l w w' e, inv w s -> (forall p i, In (p, i) l -> where_ s i = Some p) -> write_loop valid indexed l w = (w', Err e) ->
  e = PropertyError /\ exists i p, where_ s i = Some p /\ valid (holds s i) = false.
Proof.
  intros s l. induction l as [|[p i] l IH]; intros w w' e H L E; cbn in E; [discriminate|].
  assert (W : where_ s i = Some p) by (apply L; left; auto). pose proof (i_here w s H _ _ W) as X. destruct (dict_get Z.eqb (w_mem w) i) as [[d v]|] eqn:G; [|congruence]. destruct (i_mem w s H _ _ _ G) as (-> & ->). rewrite W in E.
  destruct (valid (holds s i)) eqn:V; [|injection E as <- <-; split; auto; exists i, p; auto].
  set (w1 := set_disk w (dict_set Z.eqb (w_disk w) p (holds s i))) in *.
  assert (H1 : inv w1 s).
  { pose proof H as [A B C D E1 F K I J]. split; auto; unfold w1; cbn.
    - intros j q Q M. rewrite get_set. destruct (Z.eqb_spec q p) as [->|N]; auto. do 2 f_equal. apply (D i j p); auto.
    - intros q u Q M. rewrite get_set. destruct (Z.eqb_spec q p) as [->|N]; [exfalso; eapply Q; eauto|]. auto. }
  destruct (indexed (holds s i)); (eapply IH; [|intros q j I; apply L; right; exact I|exact E]); auto. apply inv_mark; auto.
Qed.

(** ** The claims *)

(** Whoever asks for the object at a place gets an object there with what was put in last, and the same one as
    long as it is in memory. *)
Theorem C66_get : forall ro disk w s p v w' r, reach ro disk w s -> now s p = Some v -> step valid indexed w (Get p) = (w', r) ->
  exists i, r = Ok i /\ dict_get Z.eqb (w_mem w') i = Some (MObj (Some p) v) /\ (forall j, where_ s j = Some p -> j = i) /\
    forall j o, dict_get Z.eqb (w_mem w) j = Some o -> dict_get Z.eqb (w_mem w') j = Some o.
Proof.
  intros ro disk w s p v w' r R N E. cbn [step] in E. assert (NN : now s p <> None) by congruence. destruct (get_step w s p w' r (reach_inv _ _ _ _ R) NN E) as (_ & i & u & -> & U & X & Y & Z). exists i. rewrite N in U. injection U as <-. auto.
Qed.
(** Every object in memory is what the specification says. *)
Theorem C66_memory : forall ro disk w s i d v, reach ro disk w s -> dict_get Z.eqb (w_mem w) i = Some (MObj d v) -> d = where_ s i /\ v = holds s i.
Proof. intros ro disk w s i d v R. apply (i_mem w s (reach_inv _ _ _ _ R)). Qed.
(** The collector takes no object the program has, and what it takes is in the file as it was. *)
Theorem C66_collect : forall ro disk w s i w', reach ro disk w s -> step valid indexed w (Collect i) = (w', Ok 1) ->
  ~ In i (w_held w) /\ w_disk w' = w_disk w /\ forall p, where_ s i = Some p -> dict_get Z.eqb (w_disk w) p = Some (holds s i).
Proof.
  intros ro disk w s i w' R E. cbn [step] in E. destruct (existsb (Z.eqb i) (w_held w) || existsb (fun x => snd x =? i) (w_lru w) || existsb (fun x => snd x =? i) (w_mod w)) eqn:X; [discriminate|]. injection E as <-.
  apply orb_false_iff in X. destruct X as (X & X3). apply orb_false_iff in X. destruct X as (X1 & _). split; [|split; auto].
  - intros I. assert (Y : existsb (Z.eqb i) (w_held w) = true) by (apply existsb_exists; exists i; split; auto; apply Z.eqb_refl). congruence.
  - intros p W. pose proof (reach_inv _ _ _ _ R) as H. apply (i_disk w s H); auto. destruct (dict_get Z.eqb (w_mod w) p) as [j|] eqn:G; auto. apply get_In in G. assert (j = i) by (apply (i_one w s H j i p); auto; apply (i_in w s H); auto). subst j.
    assert (Y : existsb (fun x => snd x =? i) (w_mod w) = true); [|congruence]. apply existsb_exists. exists (p, i). split; auto. apply Z.eqb_refl.
Qed.
(** Saving stores what was put in last at every place something refers to, and forgets all marks. *)
Theorem C66_save : forall disk w s w' r, reach false disk w s -> step valid indexed w Save = (w', Ok r) ->
  w_mod w' = [] /\ forall p v, now s p = Some v -> dict_get Z.eqb (w_disk w') p = Some v.
Proof.
  intros disk w s w' r R E. cbn [step] in E. pose proof (reach_ro _ _ _ _ R) as RO.
  destruct (save_inv w s w' (Ok r) (reach_inv _ _ _ _ R) E) as (_ & X). apply X; auto. unfold save in E. rewrite RO in E. destruct (write_loop _ _ _ _) as [w1 [z|e]]; [|discriminate]. injection E as _ <-. auto.
Qed.
(** Saving fails only for an object that lacks required properties. *)
Theorem C66_save_fails : forall ro disk w s w' e, reach ro disk w s -> step valid indexed w Save = (w', Err e) ->
  e = PropertyError /\ exists i p, where_ s i = Some p /\ valid (holds s i) = false.
Proof.
  intros ro disk w s w' e R E. cbn [step] in E. unfold save in E. destruct (w_ro w); [discriminate|]. destruct (write_loop valid indexed (w_mod w) w) as [w1 [z|e']] eqn:EW; [discriminate|]. injection E as <- <-.
  pose proof (reach_inv _ _ _ _ R) as H. eapply write_err; eauto. intros p i I. apply (i_in w s H). auto.
Qed.
(** A file opened for reading is left as it is, and objects in it are not changed. *)
Theorem C66_readonly : forall disk w s, reach true disk w s -> w_disk w = disk /\ (forall p, now s p = dict_get Z.eqb disk p) /\ w_mod w = [] /\
  forall i v, step valid indexed w (Put i v) = (w, Err PropertyError).
Proof.
  intros disk w s R. assert (X : w_ro w = true /\ w_disk w = disk /\ (forall p, now s p = dict_get Z.eqb disk p) /\ w_mod w = []).
  { induction R as [|w s o w' r R IH SO E]; [cbn; auto|]. destruct IH as (RO & D & N & M). rewrite <- (step_ro _ _ _ _ E) in RO. split; [auto|]. rewrite (step_ro _ _ _ _ E) in RO.
    destruct o as [p|v|i v|i p|i|p|p|i|i|]; cbn [step] in E; rewrite ?RO in E.
    - unfold get_value, read_object in E. destruct (dict_get Z.eqb (w_slot w) p); [injection E as <- <-; cbn; auto|]. destruct (dict_get Z.eqb (w_cache w) p); [injection E as <- <-; cbn; auto|]. destruct (dict_get Z.eqb (w_disk w) p); injection E as <- <-; cbn; auto.
    - injection E as <- <-. cbn. auto.
    - injection E as <- <-. auto.
    - injection E as <- <-. auto.
    - injection E as <- <-. auto.
    - injection E as <- <-. auto.
    - injection E as <- <-. cbn. auto.
    - injection E as <- <-. cbn. auto.
    - destruct (_ || _); injection E as <- <-; cbn; auto.
    - unfold save in E. rewrite RO in E. injection E as <- <-. cbn. auto. }
  destruct X as (RO & X & Y & Z). repeat split; auto. intros i v. cbn. rewrite RO. auto.
Qed.
(** The setter of a reference whose weak reference knows the object that is there puts the new one in its place. *)
Theorem C66_set_ref : forall disk w s p j u w' r, reach false disk w s -> (forall i, where_ s i = Some p -> dict_get Z.eqb (w_slot w) p = Some i) ->
  dict_get Z.eqb (w_mem w) j = Some (MObj None u) -> set_ref valid indexed w p j = (w', r) ->
  r = Ok j /\ exists s', reach false disk w' s' /\ now s' p = Some u /\ where_ s' j = Some p /\ (forall i, where_ s i = Some p -> where_ s' i = None) /\
    forall q, q <> p -> now s' q = now s q.
Proof.
  intros disk w s p j u w' r R K M E. pose proof (reach_inv _ _ _ _ R) as H. pose proof (reach_ro _ _ _ _ R) as RO. destruct (i_mem w s H _ _ _ M) as (WJ & HJ). unfold set_ref in E. destruct (dict_get Z.eqb (w_slot w) p) as [i|] eqn:G.
  - apply get_In in G. pose proof (i_in w s H p i (or_intror (or_intror (or_intror G)))) as W. assert (N : j <> i) by congruence. pose proof (i_here w s H _ _ W) as X. destruct (dict_get Z.eqb (w_mem w) i) as [[d v]|] eqn:GI; [|congruence]. destruct (i_mem w s H _ _ _ GI) as (-> & ->).
    destruct (step valid indexed w (Detach i)) as [w1 r1] eqn:E1. pose proof E1 as E1'. cbn [step] in E1. rewrite RO, GI, W in E1. injection E1 as <- <-.
    set (w1 := hold _ i) in *. pose proof (reach_step _ _ _ _ (Detach i) _ _ R I E1') as R1. cbn [step] in E. change (w_ro w1) with (w_ro w) in E. rewrite RO in E.
    assert (MJ : dict_get Z.eqb (w_mem w1) j = Some (MObj None u)). { unfold w1. cbn. rewrite get_set. destruct (Z.eqb_spec j i); [congruence|auto]. } rewrite MJ in E. injection E as <- <-. split; auto.
    eexists. split; [|split; [|split; [|split]]].
    + eapply (reach_step _ _ _ _ (Attach j p)); [exact R1| |cbn [step]; change (w_ro w1) with (w_ro w); rewrite RO, MJ; reflexivity]. cbn [sound think]. cbn. intros k. unfold upd. destruct (Z.eqb_spec k i) as [->|N']; [discriminate|]. intros Q. apply N'. eapply (i_one w s H); eauto.
    + cbn. unfold upd. rewrite Z.eqb_refl. congruence.
    + cbn. unfold upd. rewrite Z.eqb_refl. auto.
    + cbn. unfold upd. intros k Q. assert (k = i) by (eapply (i_one w s H); eauto). subst k. destruct (Z.eqb_spec i j); [congruence|]. rewrite Z.eqb_refl. auto.
    + cbn. rewrite W. unfold upd. intros q Q. destruct (Z.eqb_spec q p); [congruence|auto].
  - pose proof E as E'. cbn [step] in E. rewrite RO, M in E. injection E as <- <-. split; auto. eexists. split; [|split; [|split; [|split]]].
    + eapply reach_step; [exact R| |exact E']. cbn. intros k Q. specialize (K _ Q). discriminate.
    + cbn. unfold upd. rewrite Z.eqb_refl. congruence.
    + cbn. unfold upd. rewrite Z.eqb_refl. auto.
    + intros k Q. specialize (K _ Q). discriminate.
    + cbn. unfold upd. intros q Q. destruct (Z.eqb_spec q p); [congruence|auto].
Qed.
(** What the program got or made or took out stays in memory until the program lets it go. *)
Inductive later (i : Z) (w : world) : world -> Prop :=
| later_now : later i w w
| later_step : forall w1 o w2 r, later i w w1 -> o <> Drop i -> step valid indexed w1 o = (w2, r) -> later i w w2.
Definition gets (o : mop) : Prop := match o with Get _ | New _ | Detach _ => True | _ => False end.
Lemma write_held : forall l w w' r, write_loop valid indexed l w = (w', r) -> w_held w' = w_held w /\ w_mem w' = w_mem w.
Proof. induction l as [|[p i] l IH]; cbn; intros w w' r E. { injection E as <- <-. auto. } destruct (dict_get Z.eqb (w_mem w) i) as [[[q|] v]|]; try (injection E as <- <-; auto; fail). destruct (valid v); [|injection E as <- <-; auto]. apply IH in E. destruct (indexed v); exact E. Qed.
Lemma kept_step : forall i w o w' r, In i (w_held w) -> dict_get Z.eqb (w_mem w) i <> None -> o <> Drop i -> step valid indexed w o = (w', r) -> In i (w_held w') /\ dict_get Z.eqb (w_mem w') i <> None.
Proof.
  intros i w o w' r H M N E.
  assert (S : forall (l : list (Z * mobj)) k v, dict_get Z.eqb l i <> None -> dict_get Z.eqb (dict_set Z.eqb l k v) i <> None). { intros l k v X. rewrite get_set. destruct (i =? k); [discriminate|auto]. }
  destruct o as [p|v|j v|j p|j|p|p|j|j|]; cbn [step] in E.
  - unfold get_value, read_object in E. destruct (dict_get Z.eqb (w_slot w) p); [injection E as <- <-; cbn; auto|]. destruct (dict_get Z.eqb (w_cache w) p); [injection E as <- <-; cbn; auto|]. destruct (dict_get Z.eqb (w_disk w) p); injection E as <- <-; cbn; auto.
  - injection E as <- <-; cbn; auto.
  - destruct (w_ro w); [injection E as <- <-; auto|]. destruct (dict_get Z.eqb (w_mem w) j) as [[[d|] u]|]; injection E as <- <-; cbn; auto.
  - destruct (w_ro w); [injection E as <- <-; auto|]. destruct (dict_get Z.eqb (w_mem w) j) as [[[d|] u]|]; injection E as <- <-; cbn; auto. destruct (dict_get Z.eqb (w_disk w) p); cbn; auto.
  - destruct (w_ro w); [injection E as <- <-; auto|]. destruct (dict_get Z.eqb (w_mem w) j) as [[[d|] u]|]; injection E as <- <-; cbn; auto.
  - destruct (w_ro w); injection E as <- <-; auto.
  - injection E as <- <-; auto.
  - injection E as <- <-. cbn. split; auto. apply filter_In. split; auto. apply negb_true_iff, Z.eqb_neq. congruence.
  - destruct (_ || _) eqn:X; injection E as <- <-; auto. cbn. split; auto. rewrite get_without. destruct (Z.eqb_spec i j) as [->|N']; auto. exfalso. apply orb_false_iff in X. destruct X as (X & _). apply orb_false_iff in X. destruct X as (X & _). assert (Y : existsb (Z.eqb j) (w_held w) = true) by (apply existsb_exists; exists j; split; auto; apply Z.eqb_refl). congruence.
  - unfold save in E. destruct (w_ro w); [injection E as <- <-; auto|]. destruct (write_loop valid indexed (w_mod w) w) as [w1 [z|e]] eqn:EW; apply write_held in EW; destruct EW as (EH & EM); injection E as <- <-; cbn; rewrite EH, EM; auto.
Qed.
Theorem C66_kept : forall ro disk w s o w1 i w2, reach ro disk w s -> sound s o -> gets o -> step valid indexed w o = (w1, Ok i) -> later i w1 w2 ->
  exists d v, dict_get Z.eqb (w_mem w2) i = Some (MObj d v).
Proof.
  intros ro disk w s o w1 i w2 R SO G E L.
  assert (X : In i (w_held w1) /\ dict_get Z.eqb (w_mem w1) i <> None).
  { pose proof (reach_inv _ _ _ _ R) as H. destruct o as [p|v|j v|j p|j|p|p|j|j|]; try destruct G.
    - cbn [sound] in SO. destruct (now s p) as [v|] eqn:NV; [|congruence]. destruct (C66_get _ _ _ _ _ _ _ _ R NV E) as (k & [= <-] & M & _). split; [|congruence]. cbn [step] in E. unfold get_value, read_object in E.
      destruct (dict_get Z.eqb (w_slot w) p); [injection E as <- <-; cbn; auto|]. destruct (dict_get Z.eqb (w_cache w) p); [injection E as <- <-; cbn; auto|]. destruct (dict_get Z.eqb (w_disk w) p); [|discriminate]; injection E as <- <-; cbn; auto.
    - cbn [step] in E. injection E as <- <-. cbn. rewrite get_set, Z.eqb_refl. split; [auto|discriminate].
    - cbn [step] in E. destruct (w_ro w); [discriminate|]. destruct (dict_get Z.eqb (w_mem w) j) as [[[d|] u]|] eqn:M; [| |discriminate]; injection E as <- <-; cbn. { rewrite get_set, Z.eqb_refl. split; [auto|discriminate]. } rewrite M. split; [auto|discriminate]. }
  assert (Y : In i (w_held w2) /\ dict_get Z.eqb (w_mem w2) i <> None). { induction L; auto. destruct IHL. eapply kept_step; eauto. }
  destruct Y as (_ & Y). destruct (dict_get Z.eqb (w_mem w2) i) as [[d v]|]; [eauto|congruence].
Qed.
End Claims.
Print Assumptions C66_kept. Print Assumptions C66_get. Print Assumptions C66_memory. Print Assumptions C66_collect. Print Assumptions C66_save. Print Assumptions C66_save_fails. Print Assumptions C66_readonly. Print Assumptions C66_set_ref.

(** ** A case, and what goes wrong *)

Fixpoint walk (w : world) (s : ideal) (l : list mop) : world * ideal :=
  match l with [] => (w, s) | o :: r => let (w1, x) := step (fun _ => true) (fun v => v =? 11) w o in walk w1 (think s (o, x)) r end.
Definition soundb (w : world) (s : ideal) (o : mop) : bool :=
  match o with
  | Get p => match now s p with Some _ => true | None => false end
  | Attach i p => forallb (fun j => match where_ s (fst j) with Some q => negb (q =? p) | None => true end) (w_mem w)
  | _ => true
  end.
Fixpoint soundsb (w : world) (s : ideal) (l : list mop) : bool :=
  match l with [] => true | o :: r => soundb w s o && let (w1, x) := step (fun _ => true) (fun v => v =? 11) w o in soundsb w1 (think s (o, x)) r end.
Lemma soundb_ok : forall w s o, inv w s -> soundb w s o = true -> sound s o.
Proof.
  intros w s o H. destruct o; cbn; auto. { intros E X. rewrite X in E. discriminate. }
  intros E j W. pose proof (i_here w s H _ _ W) as X. destruct (dict_get Z.eqb (w_mem w) j) as [o|] eqn:G; [|congruence]. apply get_In in G. rewrite forallb_forall in E. specialize (E _ G). cbn in E. rewrite W, Z.eqb_refl in E. discriminate.
Qed.
Lemma walk_reach : forall ro disk l w s, reach (fun _ => true) (fun v => v =? 11) ro disk w s -> soundsb w s l = true ->
  reach (fun _ => true) (fun v => v =? 11) ro disk (fst (walk w s l)) (snd (walk w s l)).
Proof.
  intros ro disk. induction l as [|o l IH]; cbn; intros w s R E; auto. apply andb_true_iff in E. destruct E as (E1 & E2). destruct (step _ _ w o) as [w1 x] eqn:ES. apply IH; auto. eapply reach_step; eauto. eapply soundb_ok; eauto. eapply reach_inv; eauto.
Qed.

(** An object is read and changed, saved, let go, pushed out of the cache by 513 others and collected. *)
Definition ex_disk : list (Z * Z) := map (fun p => (p, 10 * p)) (zseq 1 600).
Definition ex_ops : list mop := [Get 1; Put 0 11; Save; New 5; Attach 1 700; Put 1 6; Drop 0] ++ flat_map (fun p => [Get p; Drop p]) (zseq 2 513) ++ [Forget 1; Collect 0].
Definition ex_end := walk (opened false ex_disk) (start ex_disk) ex_ops.
Lemma ex_reach : reach (fun _ => true) (fun v => v =? 11) false ex_disk (fst ex_end) (snd ex_end).
Proof. apply walk_reach; [constructor|]. vm_compute. reflexivity. Qed.
(** It is out of memory, and whoever asks for it gets what was put in; the new object is stored on saving. *)
Example C66_get_case : dict_get Z.eqb (w_mem (fst ex_end)) 0 = None /\ exists i, snd (step (fun _ => true) (fun v => v =? 11) (fst ex_end) (Get 1)) = Ok i /\
  dict_get Z.eqb (w_mem (fst (step (fun _ => true) (fun v => v =? 11) (fst ex_end) (Get 1)))) i = Some (MObj (Some 1) 11).
Proof.
  split; [vm_compute; reflexivity|]. destruct (step (fun _ => true) (fun v => v =? 11) (fst ex_end) (Get 1)) as [w' r] eqn:E.
  destruct (C66_get _ _ _ _ _ _ 1 11 w' r ex_reach ltac:(vm_compute; reflexivity) E) as (i & X & Y & _). exact (ex_intro _ i (conj X Y)).
Qed.
Example C66_save_case : exists w', step (fun _ => true) (fun v => v =? 11) (fst ex_end) Save = (w', Ok 0) /\ w_mod w' = [] /\ dict_get Z.eqb (w_disk w') 700 = Some 6 /\ dict_get Z.eqb (w_disk (fst ex_end)) 700 = Some 0.
Proof.
  destruct (step (fun _ => true) (fun v => v =? 11) (fst ex_end) Save) as [w' r] eqn:E. assert (R : r = Ok 0). { change r with (snd (w', r)). rewrite <- E. vm_compute. reflexivity. } subst r.
  destruct (C66_save _ _ _ _ _ _ _ ex_reach E) as (X & Y). refine (ex_intro _ w' (conj eq_refl (conj X (conj (Y 700 6 _) _)))); vm_compute; reflexivity.
Qed.
Example C66_collect_case : exists w', step (fun _ => true) (fun v => v =? 11) (fst (walk (opened false ex_disk) (start ex_disk) (removelast ex_ops))) (Collect 0) = (w', Ok 1).
Proof. exists (fst ex_end). vm_compute. reflexivity. Qed.
Example C66_kept_case : exists w2, later (fun _ => true) (fun v => v =? 11) 0 (fst (walk (opened false ex_disk) (start ex_disk) [Get 1])) w2 /\ In 1 (map snd (w_slot w2)).
Proof.
  exists (fst (walk (opened false ex_disk) (start ex_disk) [Get 1; Get 2; Collect 0])). split; [|vm_compute; auto].
  eapply (later_step _ _ _ _ _ (Collect 0)); [eapply (later_step _ _ _ _ _ (Get 2)); [apply later_now|discriminate|vm_compute; reflexivity]|discriminate|vm_compute; reflexivity].
Qed.
Example C66_set_ref_case : exists s', snd (set_ref (fun _ => true) (fun v => v =? 11) (fst ex_end) 514 1) = Err AttachError /\
  reach (fun _ => true) (fun v => v =? 11) false ex_disk (fst (set_ref (fun _ => true) (fun v => v =? 11) (fst (walk (fst ex_end) (snd ex_end) [New 9])) 514 515)) s' /\ now s' 514 = Some 9 /\ where_ s' 514 = None.
Proof.
  set (ws := walk (fst ex_end) (snd ex_end) [New 9]). assert (R : reach (fun _ => true) (fun v => v =? 11) false ex_disk (fst ws) (snd ws)) by (apply walk_reach; [apply ex_reach|vm_compute; reflexivity]).
  destruct (set_ref (fun _ => true) (fun v => v =? 11) (fst ws) 514 515) as [w' r] eqn:E.
  assert (K : forall i, where_ (snd ws) i = Some 514 -> dict_get Z.eqb (w_slot (fst ws)) 514 = Some i).
  { intros i W. rewrite (i_one _ _ (reach_inv _ _ _ _ _ _ R) i 514 514 W ltac:(vm_compute; reflexivity)). vm_compute. reflexivity. }
  destruct (C66_set_ref _ _ _ _ _ 514 515 9 w' r R K ltac:(vm_compute; reflexivity) E) as (_ & s' & X & Y & _ & Z & _). refine (ex_intro _ s' (conj _ (conj X (conj Y (Z 514 _))))); vm_compute; reflexivity.
Qed.
Example C66_readonly_case : exists w s, reach (fun _ => true) (fun v => v =? 11) true ex_disk w s /\ dict_get Z.eqb (w_mem w) 1 = Some (MObj (Some 5) 50).
Proof. exists (fst (walk (opened true ex_disk) (start ex_disk) [Get 3; Get 5; Put 1 4; Save])), (snd (walk (opened true ex_disk) (start ex_disk) [Get 3; Get 5; Put 1 4; Save])). split; [apply walk_reach; [constructor|]|]; vm_compute; reflexivity. Qed.
Example C66_save_fails_case : snd (step (fun v => negb (v =? 0)) (fun _ => false) (fst (step (fun v => negb (v =? 0)) (fun _ => false) (fst (step (fun v => negb (v =? 0)) (fun _ => false) (opened false [(1, 10)]) (Get 1))) (Put 0 0))) Save) = Err PropertyError.
Proof. vm_compute. reflexivity. Qed.

(** The setter of a reference detaches only the object the property knows. After value = None it knows none, and
    neither does a property that was read again while the program kept the object. The old object is then at the same
    place as the new one, and a change of the old one is what is saved. *)
Definition clash (between : mop) : world * result Z :=
  let w1 := fst (step (fun _ => true) (fun _ => false) (opened false [(1, 10)]) (Get 1)) in
  let w2 := fst (step (fun _ => true) (fun _ => false) w1 between) in
  let w3 := fst (step (fun _ => true) (fun _ => false) w2 (New 5)) in
  let w4 := fst (set_ref (fun _ => true) (fun _ => false) w3 1 1) in
  step (fun _ => true) (fun _ => false) w4 (Put 0 7).
Theorem C66_none_refuted : snd (clash (Leave 1)) = Ok 0 /\ snd (step (fun _ => true) (fun _ => false) (fst (clash (Leave 1))) (Get 1)) = Ok 1 /\ dict_get Z.eqb (w_mem (fst (clash (Leave 1)))) 1 = Some (MObj (Some 1) 5) /\
  dict_get Z.eqb (w_disk (fst (step (fun _ => true) (fun _ => false) (fst (clash (Leave 1))) Save))) 1 = Some 7.
Proof. vm_compute. auto. Qed.
Theorem C66_forgotten_refuted : snd (clash (Forget 1)) = Ok 0 /\ snd (step (fun _ => true) (fun _ => false) (fst (clash (Forget 1))) (Get 1)) = Ok 1 /\ dict_get Z.eqb (w_mem (fst (clash (Forget 1)))) 1 = Some (MObj (Some 1) 5) /\
  dict_get Z.eqb (w_disk (fst (step (fun _ => true) (fun _ => false) (fst (clash (Forget 1))) Save))) 1 = Some 7.
Proof. vm_compute. auto. Qed.
Print Assumptions C66_none_refuted. Print Assumptions C66_forgotten_refuted.
