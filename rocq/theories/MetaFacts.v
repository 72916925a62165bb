(** Invariants of registration (MetaModel) and lemmas about the lookups. *)
From Verif Require Import Base BaseFacts TypesModel TimelineModel MetaModel.
From Coq Require Import ZArith List Bool String Lia.
Import ListNotations.
Open Scope Z_scope.

(** ** Dictionaries and heaps *)
Lemma zget_set : forall V (d : list (Z * V)) k v k', zget (zset d k v) k' = if k =? k' then Some v else zget d k'.
Proof.
  intros V d k v k'. unfold zget, zset. induction d as [|[a b] d IH]; cbn; [reflexivity|].
  destruct (Z.eqb_spec a k) as [->|N]; cbn; [destruct (Z.eqb_spec k k'); reflexivity|].
  rewrite IH. destruct (Z.eqb_spec a k') as [->|]; [|reflexivity]. destruct (Z.eqb_spec k k'); [congruence|reflexivity].
Qed.
Lemma sget_set : forall d k v k', sget (sset d k v) k' = if String.eqb k k' then Some v else sget d k'.
Proof.
  intros d k v k'. unfold sget, sset. induction d as [|[a b] d IH]; cbn; [reflexivity|].
  destruct (String.eqb_spec a k) as [->|N]; cbn; [destruct (String.eqb_spec k k'); reflexivity|].
  rewrite IH. destruct (String.eqb_spec a k') as [->|]; [|reflexivity]. destruct (String.eqb_spec k k'); [congruence|reflexivity].
Qed.
Lemma zget_In : forall V (d : list (Z * V)) k v, zget d k = Some v -> In (k, v) d.
Proof.
  intros V d k v. unfold zget. induction d as [|[a b] d IH]; cbn; [discriminate|].
  destruct (Z.eqb_spec a k) as [->|]; intros E; [injection E as ->; auto|auto].
Qed.
Lemma zget_none : forall V (d : list (Z * V)) k, zget d k = None -> ~ In k (map fst d).
Proof.
  intros V d k. unfold zget. induction d as [|[a b] d IH]; cbn; [auto|].
  destruct (Z.eqb_spec a k) as [->|]; [discriminate|]. intros E [?|?]; [auto|]. apply IH in E. auto.
Qed.
Lemma In_zget : forall V (d : list (Z * V)) k v, NoDup (map fst d) -> In (k, v) d -> zget d k = Some v.
Proof.
  intros V d k v. unfold zget. induction d as [|[a b] d IH]; cbn; [tauto|]. intros N [E|H].
  - injection E as -> ->. rewrite Z.eqb_refl. reflexivity.
  - inversion N as [|? ? N1 N2]; subst. destruct (Z.eqb_spec a k) as [->|]; [|auto]. exfalso. apply N1. apply (in_map fst) in H. exact H.
Qed.
Lemma zset_new : forall V (d : list (Z * V)) k v, zget d k = None -> zset d k v = d ++ [(k, v)].
Proof.
  intros V d k v. unfold zget, zset. induction d as [|[a b] d IH]; cbn; [reflexivity|].
  destruct (Z.eqb_spec a k) as [->|]; [discriminate|]. intros E. rewrite IH; auto.
Qed.

Lemma upd_len : forall A (l : list A) n x, List.length (upd_nth l n x) = List.length l.
Proof. intros A l. induction l as [|y l IH]; intros [|n] x; cbn; auto. Qed.
Lemma upd_same : forall A (l : list A) n x y, nth_error l n = Some y -> nth_error (upd_nth l n x) n = Some x.
Proof. intros A l. induction l as [|z l IH]; intros [|n] x y; cbn; try discriminate; eauto. Qed.
Lemma upd_other : forall A (l : list A) n x k, k <> n -> nth_error (upd_nth l n x) k = nth_error l k.
Proof. intros A l. induction l as [|z l IH]; intros [|n] x [|k] N; cbn; auto; congruence. Qed.
Lemma nth_upd : forall A (l : list A) n x k y, nth_error (upd_nth l n x) k = Some y -> (k = n /\ y = x) \/ (k <> n /\ nth_error l k = Some y).
Proof.
  intros A l n x k y E. destruct (Nat.eq_dec k n) as [->|N]; [|rewrite upd_other in E; auto].
  assert (Some y = Some x).
  { destruct (nth_error l n) eqn:E1; [rewrite (upd_same _ _ _ x _ E1) in E; congruence|].
    exfalso. apply nth_error_None in E1. assert (n < List.length (upd_nth l n x))%nat by (apply nth_error_Some; congruence). rewrite upd_len in H. lia. }
  left. split; congruence.
Qed.
Lemma nth_app_new : forall A (l : list A) x k y, nth_error (l ++ [x]) k = Some y -> nth_error l k = Some y \/ (k = List.length l /\ y = x).
Proof.
  intros A l x k y E. destruct (Nat.lt_ge_cases k (List.length l)).
  - rewrite nth_error_app1 in E; auto.
  - rewrite nth_error_app2 in E; auto. destruct (k - List.length l)%nat as [|n] eqn:D; cbn in E.
    + right. injection E as ->. split; [lia|reflexivity].
    + destruct n; discriminate.
Qed.
Lemma nth_app_old : forall A (l : list A) x k y, nth_error l k = Some y -> nth_error (l ++ [x]) k = Some y.
Proof. intros A l x k y E. rewrite nth_error_app1; auto. apply nth_error_Some. congruence. Qed.

(** ** Dynamic ids *)
Lemma pid_loop_fresh : forall fuel next used r, pid_loop fuel next used = Ok r -> ~ In r used.
Proof.
  induction fuel as [|fuel IH]; cbn; intros next used r E; destruct (existsb (Z.eqb next) used) eqn:X; try discriminate.
  - injection E as <-. intros I. assert (existsb (Z.eqb next) used = true) by (apply existsb_exists; exists next; rewrite Z.eqb_refl; auto). congruence.
  - destruct (next - 1 <? 32768); [discriminate|]. eauto.
  - injection E as <-. intros I. assert (existsb (Z.eqb next) used = true) by (apply existsb_exists; exists next; rewrite Z.eqb_refl; auto). congruence.
Qed.
Lemma next_free_fresh : forall st r st', next_free_pid st = Ok (r, st') -> ~ In r (snd st) /\ snd st' = r :: snd st.
Proof.
  intros [next used] r st'. unfold next_free_pid. destruct (pid_loop _ next used) as [x|] eqn:E; [|discriminate]. cbn [bind]. intros H. injection H as <- <-.
  split; [eapply pid_loop_fresh; eauto|reflexivity].
Qed.
Lemma claim_fresh : forall st p st', claim_pid st p = Ok st' -> (p < 32768 /\ st' = st) \/ (32768 <= p /\ ~ In p (snd st) /\ snd st' = p :: snd st).
Proof.
  intros [next used] p st'. cbn [claim_pid]. destruct (Z.leb_spec 32768 p); [|intros E; injection E as <-; auto].
  destruct (existsb (Z.eqb p) used) eqn:X; cbn; [discriminate|]. intros E. injection E as <-. right. split; auto. split; auto.
  intros I. assert (existsb (Z.eqb p) used = true) by (apply existsb_exists; exists p; rewrite Z.eqb_refl; auto). congruence.
Qed.

(** ** The invariant *)
Definition cls_ok (c : cdef) : Prop :=
  NoDup (map fst (c_props c)) /\ (forall k p, zget (c_props c) k = Some p -> p_auid p = k) /\
  (forall k p, zget (c_bypid c) k = Some p -> p_pid p = k /\ In p (props c)) /\
  (forall p, In p (props c) -> zget (c_bypid c) (p_pid p) <> None).
Definition pids_in (m : meta) : Prop :=
  forall h c p, nth_error (m_heap m) h = Some c -> In p (props c) -> 32768 <= p_pid p -> In (p_pid p) (snd (m_pids m)).
Definition pids_one (m : meta) : Prop :=
  forall h1 c1 p1 h2 c2 p2, nth_error (m_heap m) h1 = Some c1 -> In p1 (props c1) -> nth_error (m_heap m) h2 = Some c2 -> In p2 (props c2) ->
    p_pid p1 = p_pid p2 -> 32768 <= p_pid p1 -> h1 = h2 /\ p1 = p2.
Definition PInv (m : meta) : Prop := (forall h c, nth_error (m_heap m) h = Some c -> cls_ok c) /\ pids_in m /\ pids_one m.
Definition MInv (m : meta) : Prop :=
  PInv m /\
  (forall n h, sget (m_cname m) n = Some h -> exists c, nth_error (m_heap m) h = Some c) /\
  (forall a h, zget (m_cauid m) a = Some h -> exists c, nth_error (m_heap m) h = Some c /\ c_auid c = a) /\
  (forall h c, nth_error (m_heap m) h = Some c -> zget (m_cauid m) (c_auid c) = Some h).

Definition same_head (c c' : cdef) : Prop := c_name c' = c_name c /\ c_auid c' = c_auid c /\ c_parent c' = c_parent c /\ c_conc c' = c_conc c.
(** what registration of properties leaves alone *)
Definition skel (m m' : meta) : Prop :=
  m_cname m' = m_cname m /\ m_cauid m' = m_cauid m /\ m_cset m' = m_cset m /\ m_theap m' = m_theap m /\ m_tname m' = m_tname m /\
  m_tauid m' = m_tauid m /\ m_tset m' = m_tset m /\ List.length (m_heap m') = List.length (m_heap m) /\
  incl (snd (m_pids m)) (snd (m_pids m')) /\
  forall h c, nth_error (m_heap m) h = Some c ->
    exists c', nth_error (m_heap m') h = Some c' /\ same_head c c' /\ (forall k p, zget (c_props c) k = Some p -> zget (c_props c') k = Some p).
Lemma skel_refl : forall m, skel m m.
Proof. intros m. unfold skel, same_head. repeat (split; [auto using incl_refl|]). intros h c E. exists c. auto 10. Qed.
Lemma skel_trans : forall a b c, skel a b -> skel b c -> skel a c.
Proof.
  unfold skel, same_head. intros a b c (A1&A2&A3&A4&A5&A6&A7&A8&A9&A10) (B1&B2&B3&B4&B5&B6&B7&B8&B9&B10).
  repeat (split; [first [congruence|eapply incl_tran; eauto]|]). intros h x E. apply A10 in E as (y & E & (H1&H2&H3&H4) & P). apply B10 in E as (z & E & (K1&K2&K3&K4) & Q).
  exists z. split; auto. split; [|auto]. repeat split; congruence.
Qed.
Lemma skel_back : forall m m' h c', skel m m' -> nth_error (m_heap m') h = Some c' -> exists c, nth_error (m_heap m) h = Some c /\ same_head c c'.
Proof.
  intros m m' h c' (A1&A2&A3&A4&A5&A6&A7&A8&A9&A10) E. destruct (nth_error (m_heap m) h) as [c|] eqn:E1.
  - exists c. split; auto. apply A10 in E1 as (x & E2 & H & _). congruence.
  - exfalso. apply nth_error_None in E1. assert (h < List.length (m_heap m'))%nat by (apply nth_error_Some; congruence). lia.
Qed.

Definition add_prop (c : cdef) (r : prow) (pid : Z) : cdef :=
  let p := PDef (pr_name r) (pr_auid r) pid (pr_type r) (pr_opt r) (pr_uniq r) in
  CDef (c_name c) (c_auid c) (c_parent c) (c_conc c) (zset (c_props c) (pr_auid r) p) (zset (c_bypid c) pid p).
Lemma register_propertydef_cases : forall m h r m', register_propertydef m h r = Ok m' ->
  exists c, nth_error (m_heap m) h = Some c /\
  ((m' = m /\ exists p, zget (c_props c) (pr_auid r) = Some p) \/
   (zget (c_props c) (pr_auid r) = None /\ exists pid st,
      ((pr_pid r = Some pid /\ st = m_pids m) \/ (pr_pid r = None /\ next_free_pid (m_pids m) = Ok (pid, st))) /\
      0 <= pid <= 65535 /\ m' = with_pids (with_class m h (add_prop c r pid)) st)).
Proof.
  intros m h r m'. unfold register_propertydef. destruct (nth_error (m_heap m) h) as [c|] eqn:E; [|discriminate]. intros H. exists c. split; auto.
  destruct (zget (c_props c) (pr_auid r)) as [p|] eqn:P; [left; injection H as <-; eauto|]. right. split; auto.
  destruct (pr_pid r) as [pid|] eqn:D; cbn [bind fst snd] in H.
  - exists pid, (m_pids m). split; auto. destruct (Z.leb_spec 0 pid), (Z.leb_spec pid 65535); cbn [andb] in H; try discriminate. injection H as <-. split; [lia|reflexivity].
  - destruct (next_free_pid (m_pids m)) as [[pid st]|] eqn:N; [|discriminate]. cbn [bind fst snd] in H.
    exists pid, st. split; auto. destruct (Z.leb_spec 0 pid), (Z.leb_spec pid 65535); cbn [andb] in H; try discriminate. injection H as <-. split; [lia|reflexivity].
Qed.

Lemma props_add : forall c r pid p, zget (c_props c) (pr_auid r) = None ->
  In p (props (add_prop c r pid)) <-> In p (props c) \/ p = PDef (pr_name r) (pr_auid r) pid (pr_type r) (pr_opt r) (pr_uniq r).
Proof.
  intros c r pid p E. unfold props, add_prop. cbn [c_props]. rewrite zset_new by auto. rewrite map_app, in_app_iff. cbn. split; intros [H|H]; auto.
  destruct H as [H|[]]; auto.
Qed.
Lemma add_prop_ok : forall c r pid, cls_ok c -> zget (c_props c) (pr_auid r) = None -> cls_ok (add_prop c r pid).
Proof.
  intros c r pid (A & B & C & D) E. unfold cls_ok. split; [|split; [|split]].
  - unfold add_prop. cbn [c_props]. rewrite zset_new by auto. rewrite map_app. cbn.
    clear -A E. apply zget_none in E. revert A E. generalize (map fst (c_props c)) as l. induction l as [|x l IH]; cbn; intros A E.
    + constructor; [auto|constructor].
    + inversion A; subst. constructor; [|apply IH; auto]. rewrite in_app_iff. cbn. intros [?|[?|[]]]; subst; auto.
  - intros k p. unfold add_prop at 1. cbn [c_props]. rewrite zget_set. destruct (Z.eqb_spec (pr_auid r) k) as [->|]; [|auto].
    intros X. injection X as <-. reflexivity.
  - intros k p. unfold add_prop at 1. cbn [c_bypid]. rewrite zget_set. intros X. destruct (Z.eqb_spec pid k) as [->|].
    + injection X as <-. split; [reflexivity|]. apply props_add; auto.
    + apply C in X as [X1 X2]. split; auto. apply props_add; auto.
  - intros p I. apply props_add in I; auto. unfold add_prop. cbn [c_bypid]. rewrite zget_set. destruct (Z.eqb_spec pid (p_pid p)); [discriminate|].
    destruct I as [I| ->]; [apply D; auto|]. cbn in n. congruence.
Qed.
Lemma add_prop_skel : forall m h c r pid st, nth_error (m_heap m) h = Some c -> zget (c_props c) (pr_auid r) = None ->
  incl (snd (m_pids m)) (snd st) -> skel m (with_pids (with_class m h (add_prop c r pid)) st).
Proof.
  intros m h c r pid st E N I. unfold skel. cbn. rewrite upd_len. repeat (split; [auto|]).
  intros k x Ex. destruct (Nat.eq_dec k h) as [->|Nk].
  - exists (add_prop c r pid). rewrite (upd_same _ _ _ _ _ E). split; auto. assert (x = c) by congruence. subst x. split; [repeat split|].
    intros k p P. unfold add_prop. cbn [c_props]. rewrite zget_set. destruct (Z.eqb_spec (pr_auid r) k) as [<-|]; [congruence|auto].
  - exists x. rewrite upd_other by auto. split; auto. split; [repeat split|auto].
Qed.
Lemma add_prop_PInv : forall m h c r pid st, PInv m -> nth_error (m_heap m) h = Some c -> zget (c_props c) (pr_auid r) = None ->
  incl (snd (m_pids m)) (snd st) ->
  (32768 <= pid -> In pid (snd st) /\ forall h1 c1 p1, nth_error (m_heap m) h1 = Some c1 -> In p1 (props c1) -> p_pid p1 <> pid) ->
  PInv (with_pids (with_class m h (add_prop c r pid)) st).
Proof.
  intros m h c r pid st (A & B & C) E N I Hp. unfold PInv, pids_in, pids_one. cbn. split; [|split].
  - intros k x X. apply nth_upd in X as [[-> ->]|[_ X]]; [|eauto]. apply add_prop_ok; eauto.
  - intros k x p X Ip Hd. apply nth_upd in X as [[-> ->]|[_ X]]; [|apply I; eapply B; eauto].
    apply props_add in Ip; auto. destruct Ip as [Ip| ->]; [apply I; eapply B; eauto|]. cbn in *. apply Hp; auto.
  - intros h1 c1 p1 h2 c2 p2 X1 I1 X2 I2 Eq Hd.
    assert (Q : forall k x p, nth_error (upd_nth (m_heap m) h (add_prop c r pid)) k = Some x -> In p (props x) ->
      (exists x0, nth_error (m_heap m) k = Some x0 /\ In p (props x0)) \/ (k = h /\ p = PDef (pr_name r) (pr_auid r) pid (pr_type r) (pr_opt r) (pr_uniq r))).
    { intros k x p X Ip. apply nth_upd in X as [[-> ->]|[_ X]]; [|eauto]. apply props_add in Ip; auto. destruct Ip; eauto. }
    apply (Q _ _ _ X1) in I1. apply (Q _ _ _ X2) in I2. clear Q X1 X2.
    destruct I1 as [(x1 & Y1 & Z1)|[-> ->]], I2 as [(x2 & Y2 & Z2)|[-> ->]]; cbn in *.
    + eapply C; eauto.
    + exfalso. destruct Hp as [_ Hp]; [lia|]. eapply (Hp _ _ _ Y1 Z1); auto.
    + exfalso. destruct Hp as [_ Hp]; [lia|]. eapply (Hp _ _ _ Y2 Z2); auto.
    + auto.
Qed.

(** the ids a direct call may give: none, or a static one *)
Definition static_row (r : prow) : Prop := match pr_pid r with Some pid => pid < 32768 | None => True end.
Lemma register_propertydef_ok : forall m h r m', PInv m -> static_row r -> register_propertydef m h r = Ok m' -> PInv m' /\ skel m m'.
Proof.
  intros m h r m' P S E. destruct (register_propertydef_cases _ _ _ _ E) as (c & Ec & [[-> _]|(N & pid & st & H & Hb & ->)]); [split; [auto|apply skel_refl]|].
  destruct H as [[Er ->]|[Er H]].
  - unfold static_row in S. rewrite Er in S. split; [|apply add_prop_skel; auto using incl_refl]. apply add_prop_PInv; auto using incl_refl. lia.
  - apply next_free_fresh in H as [H1 H2]. assert (incl (snd (m_pids m)) (snd st)) by (rewrite H2; apply incl_tl, incl_refl).
    split; [|apply add_prop_skel; auto]. apply add_prop_PInv; auto. intros D. rewrite H2. split; [left; auto|].
    intros h1 c1 p1 X1 I1 Eq. apply H1. rewrite <- Eq. destruct P as (_ & B & _). eapply B; eauto. lia.
Qed.
Lemma with_pids_PInv : forall m st, PInv m -> incl (snd (m_pids m)) (snd st) -> PInv (with_pids m st) /\ skel m (with_pids m st).
Proof.
  intros m st (A & B & C) I. split; [split; [|split]; auto; intros h c p X Y W; apply I; eapply B; eauto|].
  unfold skel. cbn. repeat (split; [auto|]). intros h c E. exists c. unfold same_head. auto 10.
Qed.
Lemma register_prop_ok : forall m h r m', PInv m -> register_prop m h r = Ok m' -> PInv m' /\ skel m m'.
Proof.
  intros m h r m' P. unfold register_prop.
  assert (Q : forall pid st, incl (snd (m_pids m)) (snd st) ->
    (32768 <= pid -> In pid (snd st) /\ ~ In pid (snd (m_pids m))) ->
    register_propertydef (with_pids m st) h (PRow (pr_name r) (pr_auid r) (Some pid) (pr_type r) (pr_opt r) (pr_uniq r)) = Ok m' -> PInv m' /\ skel m m').
  { intros pid st I F E. destruct (with_pids_PInv m st P I) as [P1 S1].
    destruct (register_propertydef_cases _ _ _ _ E) as (c & Ec & [[-> _]|(N & pid' & st' & H & Hb & ->)]); [split; [auto|apply S1]|].
    cbn [pr_pid m_pids with_pids] in H. destruct H as [[H ->]|[H _]]; [|discriminate]. injection H as <-.
    split; [|eapply skel_trans; [exact S1|apply add_prop_skel; auto; cbn; apply incl_refl]].
    apply add_prop_PInv; auto; [cbn; apply incl_refl|]. intros D. destruct (F D) as [D1 D2]. split; [exact D1|]. intros h1 c1 p1 X1 I1 Eq. apply D2. rewrite <- Eq.
    destruct P as (_ & B & _). eapply B; eauto. lia. }
  destruct (pr_pid r) as [pid|].
  - destruct (claim_pid (m_pids m) pid) as [st|] eqn:C; [|discriminate]. cbn [bind fst snd]. apply Q.
    + apply claim_fresh in C as [[_ ->]|(_ & _ & ->)]; [apply incl_refl|apply incl_tl, incl_refl].
    + intros D. apply claim_fresh in C as [[C _]|(_ & C & ->)]; [lia|]. split; [left; auto|auto].
  - destruct (next_free_pid (m_pids m)) as [[pid st]|] eqn:C; [|discriminate]. cbn [bind fst snd]. apply next_free_fresh in C as [C1 C2]. apply Q.
    + rewrite C2. apply incl_tl, incl_refl.
    + intros _. rewrite C2. split; [left; auto|auto].
Qed.
Lemma register_props_ok : forall l m h m', PInv m -> register_props m h l = Ok m' -> PInv m' /\ skel m m'.
Proof.
  induction l as [|r l IH]; cbn [register_props]; intros m h m' P E; [injection E as <-; split; [auto|apply skel_refl]|].
  destruct (register_prop m h r) as [m1|] eqn:E1; [|discriminate]. cbn [bind] in E. apply register_prop_ok in E1 as [P1 S1]; auto.
  apply IH in E as [P2 S2]; auto. split; auto. eapply skel_trans; eauto.
Qed.

(** classes stay: identifiers keep their object, objects keep their heads and their properties *)
Definition grows (m m' : meta) : Prop :=
  (forall a h, zget (m_cauid m) a = Some h -> zget (m_cauid m') a = Some h) /\
  incl (snd (m_pids m)) (snd (m_pids m')) /\
  forall h c, nth_error (m_heap m) h = Some c ->
    exists c', nth_error (m_heap m') h = Some c' /\ same_head c c' /\ (forall k p, zget (c_props c) k = Some p -> zget (c_props c') k = Some p).
Lemma grows_refl : forall m, grows m m.
Proof. intros m. split; [auto|split; [apply incl_refl|]]. intros h c E. exists c. unfold same_head. auto 10. Qed.
Lemma grows_trans : forall a b c, grows a b -> grows b c -> grows a c.
Proof.
  intros a b c (A1 & A2 & A3) (B1 & B2 & B3). split; [auto|split; [eapply incl_tran; eauto|]]. intros h x E. apply A3 in E as (y & E & (H1&H2&H3&H4) & P).
  apply B3 in E as (z & E & (K1&K2&K3&K4) & Q). exists z. split; auto. split; [|auto]. repeat split; congruence.
Qed.
Lemma skel_grows : forall m m', skel m m' -> grows m m'.
Proof. intros m m' (A1&A2&A3&A4&A5&A6&A7&A8&A9&A10). split; [intros a h; congruence|]. split; auto. Qed.

Lemma skel_MInv : forall m m', MInv m -> PInv m' -> skel m m' -> MInv m'.
Proof.
  intros m m' (P & A & B & C) P' S. pose proof S as (A1&A2&A3&A4&A5&A6&A7&A8&A9&A10). split; auto. split; [|split].
  - intros n h E. rewrite A1 in E. apply A in E as (c & E). apply A10 in E as (c' & E & _). eauto.
  - intros a h E. rewrite A2 in E. apply B in E as (c & E & H). apply A10 in E as (c' & E & (H1 & H2 & _) & _). exists c'. split; [auto|congruence].
  - intros h c' E. destruct (skel_back _ _ _ _ S E) as (c & E1 & (H1 & H2 & _)). rewrite A2, H2. auto.
Qed.

Ltac mcbn := cbn [m_heap m_cname m_cauid m_cset m_theap m_tname m_tauid m_tset m_pids].
Lemma register_classdef_ok : forall m r m', MInv m -> register_classdef m r = Ok m' -> MInv m' /\ grows m m' /\
  (forall n h, sget (m_cname m) n = Some h -> sget (m_cname m') n = Some h) /\
  (exists h c, sget (m_cname m') (cr_name r) = Some h /\ nth_error (m_heap m') h = Some c) /\
  m_theap m' = m_theap m /\ m_tname m' = m_tname m /\ m_tauid m' = m_tauid m /\ m_tset m' = m_tset m.
Proof.
  intros m r m' M. unfold register_classdef. destruct (class_place _ _ _ _ _) as [[m1 h]|] eqn:E1; [|discriminate]. cbn [bind fst snd].
  destruct (register_props m1 h (cr_props r)) as [m2|] eqn:E2; [|discriminate]. cbn [bind]. unfold enter_class.
  destruct (nth_error (m_heap m2) h) as [c2|] eqn:E3; [|discriminate]. intros E. injection E as <-.
  pose proof M as (P & A & B & C). unfold class_place in E1.
  destruct (sget (m_cname m) (cr_name r)) as [h0|] eqn:N.
  - injection E1 as <- <-. destruct (register_props_ok _ _ _ _ P E2) as [P2 S2]. pose proof (skel_MInv _ _ M P2 S2) as M2.
    pose proof M2 as (_ & A2 & B2 & C2). pose proof (skel_grows _ _ S2) as G. destruct S2 as (Q1&Q2&Q3&Q4&Q5&Q6&Q7&Q8&Q9&Q10).
    assert (Ha : forall a, zget (zset (m_cauid m2) (c_auid c2) h0) a = zget (m_cauid m2) a).
    { intros a. rewrite zget_set. destruct (Z.eqb_spec (c_auid c2) a) as [<-|]; auto. symmetry. auto. }
    assert (Hn : forall a, sget (sset (m_cname m2) (cr_name r) h0) a = sget (m_cname m2) a).
    { intros a. rewrite sget_set. destruct (String.eqb_spec (cr_name r) a) as [<-|]; auto. symmetry. congruence. }
    split; [|split; [|split; [|split; [|split; [|split; [|split]]]]]]; mcbn; auto.
    + split; [exact P2|]. mcbn. split; [intros n h; rewrite Hn; apply A2|]. split; [intros a h; rewrite Ha; apply B2|]. intros h c X. rewrite Ha. apply C2; auto.
    + destruct G as (G1 & G2 & G3). split; [|split]; mcbn; auto. intros a h X. rewrite Ha. auto.
    + intros n h X. rewrite Hn, Q1. auto.
    + exists h0, c2. rewrite Hn, Q1. auto.
  - destruct (zget (m_cauid m) (cr_auid r)) as [h0|] eqn:N2; [discriminate|].
    set (c := CDef (cr_name r) (cr_auid r) (match cr_parent r with Some p => p | None => cr_auid r end) (cr_conc r) [] []) in *.
    assert (Em1 : m1 = Meta (m_heap m ++ [c]) (m_cname m) (m_cauid m) (m_cset m) (m_theap m) (m_tname m) (m_tauid m) (m_tset m) (m_pids m)) by congruence.
    assert (Eh : h = List.length (m_heap m)) by congruence. clear E1.
    assert (Hnp : forall k x p, nth_error (m_heap m1) k = Some x -> In p (props x) -> nth_error (m_heap m) k = Some x).
    { intros k x p X I. rewrite Em1 in X. cbn in X. apply nth_app_new in X as [X|[_ ->]]; auto. destruct I. }
    assert (P1 : PInv m1).
    { destruct P as (Pa & Pb & Pc). split; [|split].
      - intros k x X. rewrite Em1 in X. cbn in X. apply nth_app_new in X as [X|[_ ->]]; [eauto|]. unfold cls_ok, c, props, zget. cbn. repeat split; try constructor; try discriminate; tauto.
      - intros k x p X I D. pose proof (Hnp _ _ _ X I) as X'. rewrite Em1. mcbn. eapply Pb; eauto.
      - intros k1 x1 p1 k2 x2 p2 X1 I1 X2 I2. pose proof (Hnp _ _ _ X1 I1). pose proof (Hnp _ _ _ X2 I2). eapply Pc; eauto. }
    destruct (register_props_ok _ _ _ _ P1 E2) as [P2 S2]. pose proof S2 as (Q1&Q2&Q3&Q4&Q5&Q6&Q7&Q8&Q9&Q10).
    assert (Ec : nth_error (m_heap m1) h = Some c). { rewrite Em1, Eh. mcbn. rewrite nth_error_app2, Nat.sub_diag; auto. }
    assert (Hc : c_auid c2 = cr_auid r). { apply Q10 in Ec as (c' & X & (_ & H & _) & _). assert (c' = c2) by congruence. subst. rewrite H. reflexivity. }
    assert (Hm1a : m_cauid m1 = m_cauid m) by (rewrite Em1; reflexivity). assert (Hm1n : m_cname m1 = m_cname m) by (rewrite Em1; reflexivity).
    assert (Hold : forall k x, nth_error (m_heap m) k = Some x -> nth_error (m_heap m1) k = Some x). { intros k x X. rewrite Em1. mcbn. apply nth_app_old. auto. }
    split; [|split; [|split; [|split; [|split; [|split; [|split]]]]]]; mcbn.
    + split; [exact P2|]. mcbn. split; [|split].
      * intros n k. rewrite sget_set, Q1, Hm1n. destruct (String.eqb_spec (cr_name r) n) as [_|].
        -- intros X. injection X as <-. eauto.
        -- intros X. apply A in X as (x & X). apply Hold in X. apply Q10 in X as (x' & X & _). eauto.
      * intros a k. rewrite zget_set, Q2, Hm1a, Hc. destruct (Z.eqb_spec (cr_auid r) a) as [<-|].
        -- intros X. injection X as <-. eauto.
        -- intros X. apply B in X as (x & X & Hx). apply Hold in X. apply Q10 in X as (x' & X & (_ & H2 & _) & _). exists x'. split; [auto|congruence].
      * intros k x' X. destruct (skel_back _ _ _ _ S2 X) as (x & Y & (_ & Hx & _)). rewrite Em1 in Y. cbn in Y. rewrite zget_set, Q2, Hm1a, Hc, Hx.
        apply nth_app_new in Y as [Y|[-> ->]].
        -- apply C in Y. destruct (Z.eqb_spec (cr_auid r) (c_auid x)) as [Eq|]; auto. rewrite Eq in N2. congruence.
        -- cbn [c c_auid]. rewrite Z.eqb_refl. congruence.
    + split; [|split]; mcbn.
      * intros a k X. rewrite zget_set, Q2, Hm1a, Hc. destruct (Z.eqb_spec (cr_auid r) a) as [Eq|]; auto. rewrite Eq in N2. congruence.
      * intros x X. apply Q9. rewrite Em1. exact X.
      * intros k x X. apply Hold in X. auto.
    + intros n k X. rewrite sget_set, Q1, Hm1n. destruct (String.eqb_spec (cr_name r) n) as [Eq|]; auto. rewrite Eq in N. congruence.
    + exists h, c2. rewrite sget_set, String.eqb_refl. auto.
    + rewrite Q4, Em1. reflexivity.
    + rewrite Q5, Em1. reflexivity.
    + rewrite Q6, Em1. reflexivity.
    + rewrite Q7, Em1. reflexivity.
Qed.

(** same classes, whatever happens to the types *)
Definition same_classes (m m' : meta) : Prop :=
  m_heap m' = m_heap m /\ m_cname m' = m_cname m /\ m_cauid m' = m_cauid m /\ m_cset m' = m_cset m /\ m_pids m' = m_pids m.
Lemma same_classes_ok : forall m m', MInv m -> same_classes m m' -> MInv m' /\ grows m m'.
Proof.
  intros m m' M (A & B & C & D & E). split.
  - destruct M as ((P1 & P2 & P3) & M1 & M2 & M3). unfold MInv, PInv, pids_in, pids_one. rewrite A, B, C, E. split; [split; [exact P1|split; [exact P2|exact P3]]|split; [exact M1|split; [exact M2|exact M3]]].
  - unfold grows. rewrite A, C, E. split; [auto|split; [apply incl_refl|]]. intros h c X. exists c. unfold same_head. auto 10.
Qed.
Lemma register_type_same : forall m t m', register_type m t = Ok m' -> same_classes m m'.
Proof.
  intros m t m' E. unfold register_type in E.
  assert (Q : (do t' <- new_type m t ;; Ok (enter_type (push_type m t') (t_name t) (List.length (m_theap m)) (t_auid t))) = Ok m' -> same_classes m m').
  { destruct (new_type m t) as [t'|]; [|discriminate]. cbn [bind]. intros X. injection X as <-. repeat split. }
  destruct (t_kind t) eqn:K, (sget (m_tname m) (t_name t)) as [h|] eqn:N; try (apply Q; exact E).
  - destruct (nth_error (m_theap m) h) as [[n a [| |o'| | | | | | | | | | | | |]]|]; try discriminate; injection E as <-; repeat split.
  - destruct (nth_error (m_theap m) h) as [[n a k]|]; [|discriminate]. destruct k; try discriminate. injection E as <-. repeat split.
Qed.
Lemma register_alias_ok : forall m a m', MInv m -> register_alias m a = Ok m' -> MInv m' /\ grows m m'.
Proof.
  intros m [a n] m' M. unfold register_alias. cbn [fst snd]. destruct (sget (m_cname m) n) as [h|] eqn:N; [|discriminate]. intros E. injection E as <-.
  destruct M as (P & A & B & C). split.
  - split; [exact P|]. cbn. split; [|split; auto]. intros x k. rewrite sget_set. destruct (String.eqb a x); [|apply A]. intros X. injection X as <-. eauto.
  - split; [auto|split; [apply incl_refl|]]. intros k c X. exists c. unfold same_head. auto 10.
Qed.
Lemma MInv0 : MInv meta0.
Proof.
  assert (Z : forall A n (y : A), nth_error [] n = Some y -> False) by (intros A [|n] y H; discriminate).
  unfold MInv, PInv, pids_in, pids_one, meta0, sget, zget. cbn. repeat split; intros; try discriminate; exfalso; eauto.
Qed.

(** ** The chain of a class *)
Inductive lineage (m : meta) : cdef -> list cdef -> Prop :=
| L_top : forall c, parent m c = None -> lineage m c [c]
| L_child : forall c p l, parent m c = Some p -> lineage m p l -> lineage m c (c :: l).
Lemma relatives_go_lineage : forall fuel m c l, relatives_go fuel m c = Ok l -> lineage m c l.
Proof.
  induction fuel as [|fuel IH]; cbn; intros m c l E; [discriminate|]. destruct (parent m c) as [p|] eqn:P; [|injection E as <-; constructor; auto].
  destruct (relatives_go fuel m p) as [l'|] eqn:E1; [|discriminate]. cbn [bind] in E. injection E as <-. econstructor; eauto.
Qed.
Lemma lineage_fun : forall m c l, lineage m c l -> forall l', lineage m c l' -> l = l'.
Proof.
  intros m c l H. induction H as [c P|c p l P H IH]; intros l' H'; inversion H' as [? P'|? p' k P' K]; subst; auto; try congruence.
  assert (p' = p) by congruence. subst. f_equal. auto.
Qed.
Lemma relatives_go_of_lineage : forall m c l, lineage m c l -> forall fuel, (List.length l <= fuel)%nat -> relatives_go fuel m c = Ok l.
Proof.
  intros m c l H. induction H as [c P|c p l P H IH]; intros [|fuel] L; cbn in *; try lia; rewrite P; auto. rewrite IH by lia. reflexivity.
Qed.
Lemma lineage_suffix : forall m c l, lineage m c l -> forall l1 x l2, l = l1 ++ x :: l2 -> lineage m x (x :: l2).
Proof.
  intros m c l H. induction H as [c P|c p l P H IH]; intros l1 x l2 E.
  - destruct l1 as [|y [|? ?]]; cbn in E; injection E; intros; subst; try discriminate. constructor; auto.
  - destruct l1 as [|y l1]; cbn in E; injection E; intros; subst; [econstructor; eauto|]. eapply IH; eauto.
Qed.
Lemma lineage_NoDup : forall m c l, lineage m c l -> NoDup l.
Proof.
  intros m c l H. induction H as [c P|c p l P H IH]; [constructor; [auto|constructor]|]. constructor; auto. intros I.
  apply in_split in I as (l1 & l2 & E). pose proof (lineage_suffix _ _ _ H _ _ _ E) as K.
  assert (E2 : c :: l2 = c :: l) by (eapply lineage_fun; [exact K|econstructor; eauto]). apply (f_equal (@List.length _)) in E2. apply (f_equal (@List.length _)) in E.
  rewrite app_length in E. cbn in E, E2. lia.
Qed.
Lemma parent_in_heap : forall m c p, parent m c = Some p -> In p (m_heap m).
Proof.
  intros m c p. unfold parent, class_of. destruct (c_parent c =? c_auid c); [discriminate|]. destruct (zget (m_cauid m) (c_parent c)); [|discriminate]. apply nth_error_In.
Qed.
Lemma lineage_heap : forall m c l, lineage m c l -> incl (tl l) (m_heap m) /\ hd_error l = Some c.
Proof.
  intros m c l H. induction H as [c P|c p l P H [IH1 IH2]]; split; cbn; auto using incl_nil_l. intros x I. apply parent_in_heap in P.
  destruct l as [|y l]; cbn in *; [tauto|]. injection IH2 as ->. destruct I as [<-|I]; auto.
Qed.
(** the fuel of [relatives] is enough for every chain that ends *)
Lemma relatives_iff : forall m c l, relatives m c = Ok l <-> lineage m c l.
Proof.
  intros m c l. split; [apply relatives_go_lineage|]. intros H. apply relatives_go_of_lineage; auto.
  pose proof (lineage_NoDup _ _ _ H) as N. destruct (lineage_heap _ _ _ H) as [I E]. destruct l as [|x l]; cbn in *; [lia|]. inversion N; subst.
  apply le_n_S. apply Nat.le_trans with (List.length (m_heap m)); [|lia]. apply NoDup_incl_length; auto.
Qed.
