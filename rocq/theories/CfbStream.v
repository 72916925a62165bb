(** The stream operations of cfb.py:82-372 keep the state invariant and act on one stream only. *)
From Verif Require Import Base BaseFacts LRUModel CfbModel ChainSpec ChainProofs TableInv DifatInv CfbInv CfbBytes.
From Coq Require Import ZArith List Bool Lia.
Import ListNotations.
Open Scope Z_scope.

(** ** Distinct bytes of streams live at distinct file offsets *)
Lemma NoDup_znth : forall A (l : list A), NoDup l -> forall i j x, znth l i = Some x -> znth l j = Some x -> i = j.
Proof.
  intros A l H. induction H as [|a l Ha Hl IH]; intros i j x Hi Hj.
  - apply znth_Some in Hi. unfold zlen in Hi. cbn in Hi. lia.
  - pose proof (znth_Some _ _ _ _ Hi) as Ri. pose proof (znth_Some _ _ _ _ Hj) as Rj.
    change (a :: l) with ([a] ++ l) in Hi, Hj.
    destruct (Z.lt_ge_cases i 1); destruct (Z.lt_ge_cases j 1).
    + lia.
    + rewrite znth_app1 in Hi by (unfold zlen; cbn; lia). rewrite znth_app2 in Hj by (unfold zlen; cbn; lia).
      apply znth_In in Hi. destruct Hi as [->|[]]. apply znth_In in Hj. contradiction.
    + rewrite znth_app1 in Hj by (unfold zlen; cbn; lia). rewrite znth_app2 in Hi by (unfold zlen; cbn; lia).
      apply znth_In in Hj. destruct Hj as [->|[]]. apply znth_In in Hi. contradiction.
    + rewrite znth_app2 in Hi, Hj by (unfold zlen; cbn; lia). specialize (IH _ _ _ Hi Hj). lia.
Qed.

Lemma nthd_In : forall l i, 0 <= i < zlen l -> In (nthd l i) l.
Proof. intros l i H. unfold nthd. destruct (znth_in_range _ l i H) as [x E]. rewrite E. eapply znth_In; eauto. Qed.

Lemma nthd_inj : forall l i j, NoDup l -> 0 <= i < zlen l -> 0 <= j < zlen l -> nthd l i = nthd l j -> i = j.
Proof.
  intros l i j H Hi Hj E. unfold nthd in E. destruct (znth_in_range _ l i Hi) as [x Ei]. destruct (znth_in_range _ l j Hj) as [y Ej].
  rewrite Ei, Ej in E. subst y. eapply NoDup_znth; eauto.
Qed.

Lemma sector_unique : forall n x r x' r', 0 < n -> 0 <= r < n -> 0 <= r' < n -> (x + 1) * n + r = (x' + 1) * n + r' -> x = x' /\ r = r'.
Proof.
  intros n x r x' r' Hn Hr Hr' E. assert (x + 1 = x' + 1).
  { transitivity (((x + 1) * n + r) / n); [|rewrite E]; rewrite Z.div_add_l, Z.div_small; lia. }
  split; [lia|]. assert (x = x') by lia. subst. lia.
Qed.

Definition Inv1 (s : cfb) (ch : Z -> list Z) (hw : Z) : Prop := Inv0 s ch [] [] hw /\ hw <= cover s.

Definition valid (s : cfb) (ch : Z -> list Z) (e i : Z) : Prop := e <> 0 /\ 0 <= i < zlen (ch e) * sec s (kind s e).

Lemma sec_pos : forall s ch fl ml hw k, Inv0 s ch fl ml hw -> 0 < sec s k.
Proof. intros s ch fl ml hw k H. pose proof (i_ss _ _ _ _ _ H). pose proof (i_mss _ _ _ _ _ H). destruct k; cbn; lia. Qed.

Lemma mini_kind : forall s e, e <> 0 -> mini s e = kind s e.
Proof. intros. unfold mini, kind. replace (e =? 0) with false by lia. reflexivity. Qed.
Lemma reg_kind : forall s e, e <> 0 -> reg s e = negb (kind s e).
Proof. intros. unfold reg, kind. replace (e =? 0) with false by lia. reflexivity. Qed.

Lemma ch_covered : forall s ch hw e, Inv1 s ch hw -> e <> 0 -> kind s e = true -> covered s (ch e).
Proof.
  intros s ch hw e [H Hc] He Hk x Hx. destruct (i_hw _ _ _ _ _ H) as (A & _ & _ & _ & Ho).
  assert (Hi : In x (mowned s ch [] (OStr e))) by (cbn; rewrite mini_kind, Hk by auto; auto).
  pose proof (TInv_range _ _ _ (i_mt _ _ _ _ _ H) _ _ Hi). specialize (Ho (OStr e) x ltac:(discriminate) Hi). lia.
Qed.

Lemma ch_nonneg : forall s ch hw e x, Inv1 s ch hw -> e <> 0 -> In x (ch e) -> 0 <= x.
Proof.
  intros s ch hw e x [H Hc] He Hx. destruct (kind s e) eqn:Hk.
  - assert (Hi : In x (mowned s ch [] (OStr e))) by (cbn; rewrite mini_kind, Hk by auto; auto).
    pose proof (TInv_range _ _ _ (i_mt _ _ _ _ _ H) _ _ Hi). lia.
  - assert (Hi : In x (fowned s ch [] (OStr e))) by (cbn; rewrite reg_kind, Hk by auto; auto).
    pose proof (TInv_range _ _ _ (i_ft _ _ _ _ _ H) _ _ Hi). lia.
Qed.

Lemma ch_NoDup : forall s ch hw e, Inv1 s ch hw -> e <> 0 -> NoDup (ch e).
Proof.
  intros s ch hw e [H Hc] He. destruct (kind s e) eqn:Hk.
  - pose proof (ti_nodup _ _ _ (i_mt _ _ _ _ _ H) (OStr e)) as Hn. cbn in Hn. rewrite mini_kind, Hk in Hn by auto. auto.
  - pose proof (ti_nodup _ _ _ (i_ft _ _ _ _ _ H) (OStr e)) as Hn. cbn in Hn. rewrite reg_kind, Hk in Hn by auto. auto.
Qed.

Lemma cont_nonneg : forall s ch hw x, Inv1 s ch hw -> In x (mini_chain s) -> 0 <= x.
Proof. intros s ch hw x [H Hc] Hx. pose proof (TInv_range _ _ _ (i_ft _ _ _ _ _ H) OCont x Hx). lia. Qed.

Lemma cover_pos : forall s ch fl ml hw p, Inv0 s ch fl ml hw -> 0 <= p < cover s * mss s -> 0 <= p / ss s < zlen (mini_chain s).
Proof.
  intros s ch fl ml hw p H Hp. destruct (ss_mss _ _ _ _ _ H) as (q & Hq & E & Eq). pose proof (i_ss _ _ _ _ _ H).
  unfold cover in Hp. rewrite <- Eq in Hp. split; [apply Z.div_pos; lia|]. apply Z.div_lt_upper_bound; [lia|]. rewrite E at 1. clear Eq. nia.
Qed.

Lemma div_range : forall i n m, 0 < n -> 0 <= i < m * n -> 0 <= i / n < m /\ 0 <= i mod n < n.
Proof.
  intros i n m Hn Hi. pose proof (Z.mod_pos_bound i n Hn). split; auto. split; [apply Z.div_pos; lia|].
  apply Z.div_lt_upper_bound; lia.
Qed.

Lemma div_mod_eq : forall i j n, 0 < n -> i / n = j / n -> i mod n = j mod n -> i = j.
Proof. intros i j n Hn H1 H2. rewrite (Z.div_mod i n), (Z.div_mod j n), H1, H2 by lia. reflexivity. Qed.

(** position in the container of byte [i] of a mini stream *)
Definition mpos_of (s : cfb) (l : list Z) (i : Z) : Z := nthd l (i / mss s) * mss s + i mod mss s.

Lemma mpos_range : forall s ch hw e i, Inv1 s ch hw -> valid s ch e i -> kind s e = true ->
  0 <= mpos_of s (ch e) i < cover s * mss s.
Proof.
  intros s ch hw e i H [He Hi] Hk. rewrite Hk in Hi. cbn in Hi. pose proof (i_mss _ _ _ _ _ (proj1 H)) as Hm.
  destruct (div_range _ _ _ Hm Hi) as [D M]. pose proof (ch_covered _ _ _ _ H He Hk _ (nthd_In _ _ D)) as C.
  unfold mpos_of. remember (nthd (ch e) (i / mss s)) as x. remember (i mod mss s) as r. remember (cover s) as c. clear - C M Hm. nia.
Qed.

Lemma saddr_inj : forall s ch hw e i e' i', Inv1 s ch hw -> valid s ch e i -> valid s ch e' i' ->
  saddr s (ch e) (kind s e) i = saddr s (ch e') (kind s e') i' -> e = e' /\ i = i'.
Proof.
  intros s ch hw e i e' i' HI [He Hi] [He' Hi'] E. pose proof HI as [H Hc].
  pose proof (i_ss _ _ _ _ _ H) as Hss. pose proof (i_mss _ _ _ _ _ H) as Hm.
  assert (Hown : forall e i, valid s ch e i -> kind s e = false ->
     In (nthd (ch e) (i / ss s)) (fowned s ch [] (OStr e)) /\ 0 <= i / ss s < zlen (ch e) /\ 0 <= i mod ss s < ss s).
  { intros e0 i0 [He0 Hi0] Hk. rewrite Hk in Hi0. cbn in Hi0. destruct (div_range i0 (ss s) (zlen (ch e0))) as [D M]; [lia|lia|].
    split; auto. cbn. rewrite reg_kind, Hk by auto. apply nthd_In; auto. }
  assert (Hcon : forall e i, valid s ch e i -> kind s e = true ->
     In (nthd (mini_chain s) (mpos_of s (ch e) i / ss s)) (fowned s ch [] OCont) /\
     0 <= mpos_of s (ch e) i / ss s < zlen (mini_chain s) /\ 0 <= mpos_of s (ch e) i mod ss s < ss s).
  { intros e0 i0 V Hk. pose proof (cover_pos _ _ _ _ _ _ H (mpos_range _ _ _ _ _ HI V Hk)) as D.
    split; [apply nthd_In; auto|]. split; auto. apply Z.mod_pos_bound. lia. }
  pose proof (ti_disj _ _ _ (i_ft _ _ _ _ _ H)) as Dj.
  unfold saddr, caddr in E. fold (mpos_of s (ch e) i) in E. fold (mpos_of s (ch e') i') in E.
  destruct (kind s e) eqn:Hk, (kind s e') eqn:Hk'.
  - destruct (Hcon e i) as (I1 & D1 & M1); [split; auto; rewrite Hk; auto|auto|].
    destruct (Hcon e' i') as (I2 & D2 & M2); [split; auto; rewrite Hk'; auto|auto|].
    apply sector_unique in E; [|lia|lia|lia]. destruct E as [E1 E2].
    apply nthd_inj in E1; auto; [|apply (ti_nodup _ _ _ (i_ft _ _ _ _ _ H) OCont)].
    pose proof (div_mod_eq _ _ (ss s) ltac:(lia) E1 E2) as E. unfold mpos_of in E.
    cbn in Hi, Hi'. destruct (div_range _ _ _ Hm Hi) as [D M]. destruct (div_range _ _ _ Hm Hi') as [D' M'].
    assert (E3 : nthd (ch e) (i / mss s) = nthd (ch e') (i' / mss s) /\ i mod mss s = i' mod mss s)
      by (apply sector_unique with (mss s); [lia|lia|lia|rewrite !Z.mul_add_distr_r; lia]).
    destruct E3 as [E3 E4].
    pose proof (nthd_In _ _ D) as J1. pose proof (nthd_In _ _ D') as J2. rewrite <- E3 in J2.
    assert (OStr e = OStr e') as Eo.
    { apply (ti_disj _ _ _ (i_mt _ _ _ _ _ H)) with (nthd (ch e) (i / mss s)); cbn; rewrite mini_kind by auto; rewrite ?Hk, ?Hk'; auto. }
    injection Eo as <-. split; auto. apply nthd_inj in E3; auto; [|eapply ch_NoDup; eauto]. eapply div_mod_eq; eauto.
  - destruct (Hcon e i) as (I1 & D1 & M1); [split; auto; rewrite Hk; auto|auto|].
    destruct (Hown e' i') as (I2 & D2 & M2); [split; auto; rewrite Hk'; auto|auto|].
    apply sector_unique in E; [|lia|lia|lia]. destruct E as [E1 E2]. rewrite E1 in I1.
    specialize (Dj _ _ _ I1 I2). discriminate.
  - destruct (Hcon e' i') as (I1 & D1 & M1); [split; auto; rewrite Hk'; auto|auto|].
    destruct (Hown e i) as (I2 & D2 & M2); [split; auto; rewrite Hk; auto|auto|].
    apply sector_unique in E; [|lia|lia|lia]. destruct E as [E1 E2]. rewrite <- E1 in I1.
    specialize (Dj _ _ _ I1 I2). discriminate.
  - destruct (Hown e i) as (I1 & D1 & M1); [split; auto; rewrite Hk; auto|auto|].
    destruct (Hown e' i') as (I2 & D2 & M2); [split; auto; rewrite Hk'; auto|auto|].
    apply sector_unique in E; [|lia|lia|lia]. destruct E as [E1 E2]. rewrite <- E1 in I2.
    specialize (Dj _ _ _ I1 I2). injection Dj as <-. split; auto.
    apply nthd_inj in E1; auto; [|eapply ch_NoDup; eauto]. eapply div_mod_eq; [|eauto|eauto]. lia.
Qed.

(** every byte of a stream lies in a sector of its own chain or of the container *)
Lemma saddr_sector : forall s ch hw e i, Inv1 s ch hw -> valid s ch e i ->
  exists x r o, saddr s (ch e) (kind s e) i = (x + 1) * ss s + r /\ 0 <= r < ss s /\ In x (fowned s ch [] o) /\
    (o = OCont \/ o = OStr e).
Proof.
  intros s ch hw e i HI V. pose proof V as [He Hi]. pose proof HI as [H Hc].
  pose proof (i_ss _ _ _ _ _ H) as Hss. unfold saddr, caddr. fold (mpos_of s (ch e) i).
  destruct (kind s e) eqn:Hk; cbn in Hi.
  - pose proof (cover_pos _ _ _ _ _ _ H (mpos_range _ _ _ _ _ HI V Hk)) as D.
    exists (nthd (mini_chain s) (mpos_of s (ch e) i / ss s)), (mpos_of s (ch e) i mod ss s), OCont.
    split; [reflexivity|]. split; [apply Z.mod_pos_bound; lia|]. split; auto. apply nthd_In; auto.
  - destruct (div_range i (ss s) (zlen (ch e))) as [D M]; [lia|lia|].
    exists (nthd (ch e) (i / ss s)), (i mod ss s), (OStr e).
    split; [reflexivity|]. split; [auto|]. split; auto. cbn. rewrite reg_kind, Hk by auto. apply nthd_In; auto.
Qed.

Lemma saddr_not_dir : forall s ch hw e i x k, Inv1 s ch hw -> valid s ch e i -> In x (dir_chain s) -> 0 <= k < ss s ->
  saddr s (ch e) (kind s e) i <> (x + 1) * ss s + k.
Proof.
  intros s ch hw e i x k HI V Hx Hk E. destruct (saddr_sector _ _ _ _ _ HI V) as (y & r & o & E1 & Hr & Hy & Ho).
  rewrite E1 in E. apply sector_unique in E; [|lia|lia|lia]. destruct E as [-> _].
  pose proof (ti_disj _ _ _ (i_ft _ _ _ _ _ (proj1 HI)) o ODir x Hy Hx). destruct Ho; subst; discriminate.
Qed.

(** the directory sectors hold the same bytes *)
Definition DirSame (s s' : cfb) : Prop :=
  forall x k, In x (dir_chain s) -> 0 <= k < ss s -> fbyte (file s') ((x + 1) * ss s + k) = fbyte (file s) ((x + 1) * ss s + k).

(** ** What an operation on stream [e] may change *)
Record Chg (e : Z) (s s' : cfb) : Prop := {
  c_ss : ss s' = ss s; c_mss : mss s' = mss s; c_mmax : mmax s' = mmax s; c_ccap : ccap s' = ccap s;
  c_dir : dir_chain s' = dir_chain s; c_dcnt : dir_cnt s' = dir_cnt s; c_dfree : dir_free s' = dir_free s;
  c_ents : forall j, j <> 0 -> j <> e -> ents s' j = ents s j;
  c_root : e_size (ents s' 0) = e_size (ents s 0);
  c_cont : exists ext, mini_chain s' = mini_chain s ++ ext;
  c_dirb : DirSame s s' }.

Lemma DirSame_file : forall s s', file s' = file s -> DirSame s s'.
Proof. intros s s' E x k _ _. rewrite E. reflexivity. Qed.

Lemma Chg_refl : forall e s, Chg e s s.
Proof. intros. constructor; auto. exists []. rewrite app_nil_r. auto. apply DirSame_file; auto. Qed.

Lemma Chg_trans : forall e a b c, Chg e a b -> Chg e b c -> Chg e a c.
Proof.
  intros e a b c [] []. constructor; try congruence.
  - intros. rewrite c_ents1, c_ents0; auto.
  - destruct c_cont0 as [x E0]. destruct c_cont1 as [y E]. exists (x ++ y). rewrite app_assoc, <- E0. auto.
  - intros x k Hx Hk. rewrite <- (c_dirb0 x k Hx Hk). rewrite <- c_ss0. apply c_dirb1; [congruence|lia].
Qed.

Lemma Frame_Chg : forall e s s', Frame s s' -> Chg e s s'.
Proof. intros e s s' []. constructor; auto. apply DirSame_file; auto. Qed.

Lemma FileOnly_Chg : forall e s s', FileOnly s s' -> DirSame s s' -> Chg e s s'.
Proof. intros e s s' -> D. constructor; auto. exists []. rewrite app_nil_r. auto. Qed.

Lemma CacheOnly_Chg : forall e s s', CacheOnly s s' -> Chg e s s'.
Proof. intros e s s' C. apply FileOnly_Chg. apply CacheOnly_FileOnly; auto. apply DirSame_file. rewrite C. reflexivity. Qed.

Lemma set_sid_Chg : forall e s v, e <> 0 -> Chg e s (set_sid s e v).
Proof.
  intros. constructor; auto.
  - intros. cbn. replace (j =? e) with false by lia. auto.
  - cbn -[Z.eqb]. replace (0 =? e) with false by lia. auto.
  - exists []. rewrite app_nil_r. auto.
  - apply DirSame_file; auto.
Qed.

Lemma set_size_Chg : forall e s v, e <> 0 -> Chg e s (set_size s e v).
Proof.
  intros. constructor; auto.
  - intros. cbn. replace (j =? e) with false by lia. auto.
  - cbn -[Z.eqb]. replace (0 =? e) with false by lia. auto.
  - exists []. rewrite app_nil_r. auto.
  - apply DirSame_file; auto.
Qed.

Lemma with_start_Chg : forall e s i, e <> 0 -> Chg e s (with_start s e i).
Proof. intros. unfold with_start. destruct (e_sid (ents s e)). apply Chg_refl. apply set_sid_Chg; auto. Qed.

Lemma Chg_sec : forall e s s' k, Chg e s s' -> sec s' k = sec s k.
Proof. intros e s s' k []. unfold sec. destruct k; auto. Qed.

Lemma Chg_kind : forall e s s' j, Chg e s s' -> j <> 0 -> j <> e -> kind s' j = kind s j.
Proof. intros e s s' j []. intros. unfold kind. rewrite c_ents0, c_mmax0; auto. Qed.

Lemma nthd_app : forall l x i, 0 <= i < zlen l -> nthd (l ++ x) i = nthd l i.
Proof. intros. unfold nthd. rewrite znth_app1 by lia. auto. Qed.

(** growing a chain or the container moves no byte *)
Lemma saddr_grow : forall s s' ch hw e x i, Inv1 s ch hw -> Chg e s s' -> valid s ch e i ->
  saddr s' (ch e ++ x) (kind s e) i = saddr s (ch e) (kind s e) i.
Proof.
  intros s s' ch hw e x i H C V. pose proof V as [He Hi]. destruct C as [C1 C2 _ _ _ _ _ _ _ [y C3]].
  unfold saddr, caddr. rewrite C1, C2, C3. pose proof (i_ss _ _ _ _ _ (proj1 H)). pose proof (i_mss _ _ _ _ _ (proj1 H)).
  destruct (kind s e) eqn:Hk; cbn in Hi.
  - pose proof (cover_pos _ _ _ _ _ _ (proj1 H) (mpos_range _ _ _ _ _ H V Hk)) as D. unfold mpos_of in D.
    destruct (div_range i (mss s) (zlen (ch e))) as [D1 _]; [lia|lia|]. rewrite (nthd_app (ch e)) by auto. rewrite (nthd_app (mini_chain s)) by auto. auto.
  - destruct (div_range i (ss s) (zlen (ch e))) as [D1 _]; [lia|lia|]. rewrite nthd_app by auto. auto.
Qed.

Lemma saddr_chg : forall s s' ch hw e j i, Inv1 s ch hw -> Chg e s s' -> valid s ch j i ->
  saddr s' (ch j) (kind s j) i = saddr s (ch j) (kind s j) i.
Proof.
  intros s s' ch hw e j i H C V. assert (C' : Chg j s s \/ True) by auto.
  pose proof V as [He Hi]. destruct C as [C1 C2 _ _ _ _ _ _ _ [y C3]].
  unfold saddr, caddr. rewrite C1, C2, C3. 
  destruct (kind s j) eqn:Hk; cbn in Hi; auto.
  pose proof (cover_pos _ _ _ _ _ _ (proj1 H) (mpos_range _ _ _ _ _ H V Hk)) as D. unfold mpos_of in D.
  rewrite nthd_app by auto. auto.
Qed.

(** the other streams keep their chains and bytes *)
Definition Keeps (e : Z) (s : cfb) (ch : Z -> list Z) (s' : cfb) (ch' : Z -> list Z) : Prop :=
  forall j, j <> 0 -> j <> e -> ch' j = ch j /\ forall i, valid s ch j i -> sbyte s' ch' j i = sbyte s ch j i.

Lemma Keeps_trans : forall e a cha b chb c chc, Chg e a b -> Keeps e a cha b chb -> Keeps e b chb c chc -> Keeps e a cha c chc.
Proof.
  intros e a cha b chb c chc C K1 K2 j Hj Hje. destruct (K1 j Hj Hje) as [E1 B1]. destruct (K2 j Hj Hje) as [E2 B2].
  split; [congruence|]. intros i V. rewrite B2, B1; auto.
  destruct V as [V1 V2]. split; auto. rewrite E1, (Chg_sec _ _ _ _ C), (Chg_kind _ _ _ _ C); auto.
Qed.

Lemma Keeps_file : forall e s ch hw s' ch', Inv1 s ch hw -> Chg e s s' -> file s' = file s ->
  (forall j, j <> e -> ch' j = ch j) -> Keeps e s ch s' ch'.
Proof.
  intros e s ch hw s' ch' H C F E j Hj Hje. split; auto. intros i V. unfold sbyte. rewrite E, F by auto. f_equal.
  rewrite (Chg_kind _ _ _ _ C) by auto. eapply saddr_chg; eauto.
Qed.

(** ** Reading *)
Definition todo_of (size pos n : Z) : Z := if n =? -1 then Z.max 0 (size - pos) else Z.max 0 (Z.min n (size - pos)).

Definition cap_of (s : cfb) (ch : Z -> list Z) (e : Z) : Z := zlen (ch e) * sec s (kind s e).

Lemma pos_split : forall p n, 0 < n -> p / n * n + p mod n = p.
Proof. intros. pose proof (Z.div_mod p n ltac:(lia)). lia. Qed.

Lemma stream_read_ok : forall s ch hw h n, Inv1 s ch hw -> h_ent h <> 0 -> h_chain h = ch (h_ent h) ->
  0 <= h_pos h -> e_size (ents s (h_ent h)) <= cap_of s ch (h_ent h) ->
  let t := todo_of (e_size (ents s (h_ent h))) (h_pos h) n in
  exists s', stream_read s h n = Ok (s', h_at h (h_pos h + t), map (sbyte s ch (h_ent h)) (zseq (h_pos h) t)) /\
    CacheOnly s s' /\ cache_ok s'.
Proof.
  intros s ch hw h n H He Hch Hp Hcap t. unfold stream_read. fold (todo_of (e_size (ents s (h_ent h))) (h_pos h) n). fold t.
  assert (Ht : 0 <= t /\ (0 < t -> h_pos h + t <= e_size (ents s (h_ent h)))).
  { unfold t, todo_of. destruct (n =? -1); lia. }
  destruct Ht as [Ht1 Ht2]. rewrite Hch. fold (kind s (h_ent h)). unfold cap_of in Hcap.
  pose proof (i_ss _ _ _ _ _ (proj1 H)) as Hss. pose proof (i_mss _ _ _ _ _ (proj1 H)) as Hm. pose proof (i_cache _ _ _ _ _ (proj1 H)) as HC.
  destruct (Z.eq_dec t 0) as [Ez|Nz].
  { rewrite Ez. exists s. destruct (kind s (h_ent h)); cbn; (split; [f_equal|split; [apply CacheOnly_refl|auto]]). }
  assert (Hle : h_pos h + t <= zlen (ch (h_ent h)) * sec s (kind s (h_ent h))) by lia.
  destruct (kind s (h_ent h)) eqn:Hk; cbn [sec] in Hle.
  - destruct (read_mini_spec (Z.to_nat t) s ch [] [] hw (ch (h_ent h)) (h_pos h / mss s) (h_pos h mod mss s) t (-1, []) []) as (s' & E & C & HC').
    + apply H.
    + eapply ch_covered; eauto.
    + intros x. eapply cont_nonneg; eauto.
    + cbn. congruence.
    + apply Z.div_pos; lia.
    + apply Z.mod_pos_bound; lia.
    + lia.
    + rewrite pos_split by lia. lia.
    + rewrite pos_split in E by lia. rewrite E. cbn [bind app]. exists s'. rewrite zlen_map, zlen_zseq by lia.
      split; auto. unfold sbyte. rewrite Hk. reflexivity.
  - destruct (read_reg_spec (Z.to_nat t) s (ch (h_ent h)) (h_pos h / ss s) (h_pos h mod ss s) t []) as (s' & E & C & HC'); auto.
    + intros x. eapply ch_nonneg; eauto.
    + apply Z.div_pos; lia.
    + apply Z.mod_pos_bound; lia.
    + lia.
    + rewrite pos_split by lia. lia.
    + rewrite pos_split in E by lia. rewrite E. cbn [bind app]. exists s'. rewrite zlen_map, zlen_zseq by lia.
      split; auto. unfold sbyte. rewrite Hk. reflexivity.
Qed.

(** ** Writing inside the allocated part *)
Definition write_loop (s : cfb) (k : bool) (l : list Z) (pos : Z) (data : list Z) : result cfb :=
  if k then write_mini (length data) s l (pos / mss s) (pos mod mss s) data
  else write_reg (length data) s l (pos / ss s) (pos mod ss s) data.

Lemma write_loop_ok : forall s ch hw e pos data, Inv1 s ch hw -> e <> 0 -> 0 <= pos -> pos + zlen data <= cap_of s ch e ->
  exists s', write_loop s (kind s e) (ch e) pos data = Ok s' /\ FileOnly s s' /\ Inv1 s' ch hw /\ DirSame s s' /\
    forall j i, valid s ch j i -> sbyte s' ch j i =
      if (j =? e) && (pos <=? i) && (i <? pos + zlen data) then nthd data (i - pos) else sbyte s ch j i.
Proof.
  intros s ch hw e pos data H He Hp Hcap. unfold cap_of in Hcap.
  pose proof (i_ss _ _ _ _ _ (proj1 H)) as Hss. pose proof (i_mss _ _ _ _ _ (proj1 H)) as Hm. pose proof (i_cache _ _ _ _ _ (proj1 H)) as HC.
  assert (Inj : forall i j, 0 <= i < zlen (ch e) * sec s (kind s e) -> 0 <= j < zlen (ch e) * sec s (kind s e) ->
     saddr s (ch e) (kind s e) i = saddr s (ch e) (kind s e) j -> i = j).
  { intros i j Hi Hj E. eapply saddr_inj in E; eauto; [tauto| |]; split; auto. }
  assert (Hw : exists s', write_loop s (kind s e) (ch e) pos data = Ok s' /\ FileOnly s s' /\ cache_ok s' /\
     Wrote (file s) (file s') (saddr s (ch e) (kind s e)) pos data).
  { unfold write_loop. destruct (kind s e) eqn:Hk; cbn [sec] in *.
    - destruct (write_mini_spec (length data) s ch [] [] hw (ch e) (pos / mss s) (pos mod mss s) data) as (s' & E & F & HC' & W); auto.
      + apply H.
      + eapply ch_covered; eauto.
      + intros x. eapply cont_nonneg; eauto.
      + apply Z.div_pos; lia.
      + apply Z.mod_pos_bound; lia.
      + unfold zlen. lia.
      + rewrite pos_split by lia. lia.
      + rewrite pos_split in W by lia. eauto.
    - destruct (write_reg_spec (length data) s (ch e) (pos / ss s) (pos mod ss s) data) as (s' & E & F & HC' & W); auto.
      + intros x. eapply ch_nonneg; eauto.
      + apply Z.div_pos; lia.
      + apply Z.mod_pos_bound; lia.
      + unfold zlen. lia.
      + rewrite pos_split by lia. lia.
      + rewrite pos_split in W by lia. eauto. }
  destruct Hw as (s' & E & F & HC' & W1 & W2). exists s'. split; auto. split; auto.
  split. { split; [eapply FileOnly_Inv0; eauto; apply H|]. rewrite F. apply H. }
  assert (DS : DirSame s s').
  { intros x k Hx Hk. apply W2. intros q Hq Eq. eapply saddr_not_dir in Eq; eauto. split; [auto|lia]. }
  split; auto. intros j i V. pose proof (zlen_nonneg _ data).
  assert (Ek : kind s' j = kind s j) by (rewrite F; reflexivity).
  assert (Ea : saddr s' (ch j) (kind s' j) i = saddr s (ch j) (kind s j) i) by (rewrite Ek; eapply saddr_chg; eauto; apply FileOnly_Chg with (e := e); auto).
  unfold sbyte. rewrite Ea. destruct ((j =? e) && (pos <=? i) && (i <? pos + zlen data)) eqn:Ec.
  - assert (j = e) by lia. subst j. rewrite <- W1 by lia. f_equal. f_equal. lia.
  - apply W2. intros q Hq Eq. eapply saddr_inj in Eq; eauto; [lia|]. split; [auto|]. lia.
Qed.

(** ** Allocation *)
Lemma alloc_loop_ok : forall fuel s ch hw h mn count, Inv1 s ch hw -> h_ent h <> 0 -> h_chain h = ch (h_ent h) ->
  mn = kind s (h_ent h) -> count - zlen (h_chain h) <= Z.of_nat fuel ->
  alloc_loop fuel s h mn count = Err Overflow \/
  exists s' ch' hw' ext, alloc_loop fuel s h mn count = Ok (s', h_with h (ch' (h_ent h))) /\ Inv1 s' ch' hw' /\
    Chg (h_ent h) s s' /\ file s' = file s /\ cache s' = cache s /\ e_size (ents s' (h_ent h)) = e_size (ents s (h_ent h)) /\
    (forall j, j <> h_ent h -> ch' j = ch j) /\ ch' (h_ent h) = ch (h_ent h) ++ ext /\
    zlen (ch' (h_ent h)) = Z.max count (zlen (ch (h_ent h))).
Proof.
  induction fuel as [|n IH]; intros s ch hw h mn count H He Hch Hmn Hf; cbn [alloc_loop]; rewrite ?Hch in *.
  - right. exists s, ch, hw, []. replace (count <=? zlen (ch (h_ent h))) with true by lia.
    split; [|repeat (split; [solve [auto | apply Chg_refl | rewrite app_nil_r; auto | lia]|]); lia]. destruct h; cbn in *. subst. reflexivity.
  - destruct (count <=? zlen (ch (h_ent h))) eqn:Ec.
    { right. exists s, ch, hw, [].
      split; [|repeat (split; [solve [auto | apply Chg_refl | rewrite app_nil_r; auto | lia]|]); lia]. destruct h; cbn in *. subst. reflexivity. }
    fold (end_of (ch (h_ent h))). set (e := h_ent h) in *.
    assert (Ha : fat_chain_append s (end_of (ch e)) mn = Err Overflow \/
       exists s1 i hw', fat_chain_append s (end_of (ch e)) mn = Ok (s1, i) /\ Frame s s1 /\
         Inv1 (with_start s1 e i) (zput ch e (ch e ++ [i])) hw').
    { destruct H as [H Hc]. destruct mn.
      - destruct (append_mini s ch hw e H Hc) as [Ho|(s1 & i & hw' & E & F & H1 & Hc1)].
        + rewrite mini_kind; auto.
        + auto.
        + right. exists s1, i, hw'. split; auto. split; auto. split; auto.
          destruct (with_start_same s1 e i) as (en & -> & _). exact Hc1.
      - destruct (append_reg s ch hw e H) as [Ho|(s1 & i & E & F & Em & H1)].
        + rewrite reg_kind, <- Hmn; auto.
        + auto.
        + right. exists s1, i, hw. split; auto. split; auto. split; auto.
          destruct (with_start_same s1 e i) as (en & -> & _). unfold cover in *. cbn. rewrite Em, (f_ss _ _ F), (f_mss _ _ F). exact Hc. }
    destruct Ha as [Ho|(s1 & i & hw1 & E & F & H1)]; [left; rewrite Ho; reflexivity|].
    rewrite E. cbn [bind]. fold (with_start s1 e i).
    assert (C1 : Chg e s (with_start s1 e i)).
    { eapply Chg_trans; [apply Frame_Chg; eauto|apply with_start_Chg; auto]. }
    destruct (with_start_same s1 e i) as (en & Ews & En1 & En2 & _).
    assert (Esz : e_size (ents (with_start s1 e i) e) = e_size (ents s e)).
    { rewrite Ews. cbn. rewrite En1, (f_ents _ _ F); auto. }
    destruct (IH (with_start s1 e i) (zput ch e (ch e ++ [i])) hw1 (h_with h (ch e ++ [i])) mn count) as [Ho|R]; auto.
    + cbn. fold e. rewrite zput_same. auto.
    + cbn. fold e. rewrite Hmn. unfold kind. rewrite Esz, (c_mmax _ _ _ C1). auto.
    + cbn. rewrite zlen_app. unfold zlen at 2. cbn. lia.
    + right. destruct R as (s' & ch' & hw' & ext & E2 & H2 & C2 & F2 & K2 & S2 & O2 & P2 & L2). cbn in *. fold e in E2, C2, S2, O2, P2, L2.
      exists s', ch', hw', (i :: ext). split; [exact E2|]. split; auto. split; [eapply Chg_trans; eauto|].
      split; [rewrite F2, Ews; cbn; apply (f_file _ _ F)|]. split; [rewrite K2, Ews; cbn; apply (f_cache _ _ F)|].
      split; [congruence|]. rewrite zput_same in *. split; [|split].
      * intros j Hj. rewrite O2 by auto. apply zput_other. auto.
      * rewrite P2, <- app_assoc. reflexivity.
      * rewrite L2, zlen_app. unfold zlen at 2. cbn. lia.
Qed.

Definition Inv (s : cfb) (ch : Z -> list Z) (hw : Z) : Prop :=
  Inv1 s ch hw /\ forall e, e <> 0 -> 0 <= e_size (ents s e) <= cap_of s ch e /\ cap_of s ch e < e_size (ents s e) + sec s (kind s e).

Lemma inv_sz : forall s ch hw, Inv s ch hw -> forall e, e <> 0 -> 0 <= e_size (ents s e) <= cap_of s ch e.
Proof. intros s ch hw [_ H] e He. apply H; auto. Qed.

(** the handle is the one of an open stream, up to date with the chain of the entry *)
Definition HInv (s : cfb) (ch : Z -> list Z) (h : handle) : Prop :=
  h_ent h <> 0 /\ h_chain h = ch (h_ent h) /\ 0 <= h_pos h <= e_size (ents s (h_ent h)).

Lemma Inv_change : forall e s ch s' ch' hw hw', Inv s ch hw -> Inv1 s' ch' hw' -> Chg e s s' ->
  (forall j, j <> e -> ch' j = ch j) -> 0 <= e_size (ents s' e) <= cap_of s' ch' e /\ cap_of s' ch' e < e_size (ents s' e) + sec s' (kind s' e) -> Inv s' ch' hw'.
Proof.
  intros e s ch s' ch' hw hw' [_ HS] H1 C O S. split; auto. intros j Hj. destruct (Z.eq_dec j e) as [->|N]; auto.
  unfold cap_of. rewrite (Chg_sec _ _ _ _ C), (Chg_kind _ _ _ _ C), (c_ents _ _ _ C), O by auto. apply HS. auto.
Qed.

Lemma Chg_cover : forall e s s' hw, Chg e s s' -> hw <= cover s -> 1 <= ss s / mss s -> hw <= cover s'.
Proof.
  intros e s s' hw [C1 C2 _ _ _ _ _ _ _ [x C3]] H Hq. unfold cover in *. rewrite C1, C2, C3, zlen_app. pose proof (zlen_nonneg _ x). nia.
Qed.

Lemma set_size_Inv1 : forall s ch hw e v, Inv1 s ch hw -> e <> 0 ->
  (v <? mmax s) = kind s e \/ (ch e = [] /\ e_sid (ents s e) = None) -> Inv1 (set_size s e v) ch hw.
Proof. intros s ch hw e v [H Hc] He Hor. split; [apply Inv0_set_size; auto|exact Hc]. Qed.

Lemma kind_set_size : forall s e v, kind (set_size s e v) e = (v <? mmax s).
Proof. intros. unfold kind. cbn. rewrite Z.eqb_refl. reflexivity. Qed.

Lemma size_set_size : forall s e v, e_size (ents (set_size s e v) e) = v.
Proof. intros. cbn. rewrite Z.eqb_refl. reflexivity. Qed.

Lemma ceil_bound : forall n m, 0 < m -> 0 <= n -> n <= (n + m - 1) / m * m /\ 0 <= (n + m - 1) / m /\ (n + m - 1) / m * m < n + m.
Proof.
  intros n m Hm Hn. pose proof (Z.div_mod (n + m - 1) m ltac:(lia)). pose proof (Z.mod_pos_bound (n + m - 1) m Hm).
  split; [lia|]. split; [apply Z.div_pos; lia|lia].
Qed.

Lemma sector_size_kind : forall s e, e <> 0 -> sector_size s e = sec s (kind s e).
Proof. intros. unfold sector_size, is_mini_stream, kind, sec. replace (e =? 0) with false by lia. reflexivity. Qed.

Lemma stream_free_ok : forall s ch hw e, Inv1 s ch hw -> e <> 0 ->
  exists s1, free_fat_chain s (e_sid (ents s e)) (kind s e) = Ok s1 /\
    Inv1 (set_sid s1 e None) (zput ch e []) hw /\ Chg e s (set_sid s1 e None) /\ file s1 = file s /\ cache s1 = cache s /\
    e_size (ents s1 e) = e_size (ents s e).
Proof.
  intros s ch hw e [H Hc] He. destruct (free_stream s ch hw e H He) as (s1 & E & H1 & F & Em). exists s1. split; auto.
  split. { split; auto. unfold cover in *. cbn. rewrite Em, (f_ss _ _ F), (f_mss _ _ F). exact Hc. }
  split. { eapply Chg_trans; [apply Frame_Chg; eauto|apply set_sid_Chg; auto]. }
  split; [apply (f_file _ _ F)|]. split; [apply (f_cache _ _ F)|]. rewrite (f_ents _ _ F); auto.
Qed.

(** the effect of making stream [e] at least [size] long: nothing else moves, old bytes stay *)
Record Grown (s : cfb) (ch : Z -> list Z) (e size : Z) (s' : cfb) (ch' : Z -> list Z) : Prop := {
  g_chg : Chg e s s';
  g_keeps : Keeps e s ch s' ch';
  g_size : e_size (ents s' e) = size;
  g_bytes : forall i, 0 <= i < e_size (ents s e) -> sbyte s' ch' e i = sbyte s ch e i }.

Lemma allocate_ok : forall s ch hw h size, Inv s ch hw -> HInv s ch h -> e_size (ents s (h_ent h)) < size ->
  allocate s h size = Err Overflow \/
  exists s' ch' hw', allocate s h size = Ok (s', h_with h (ch' (h_ent h))) /\ Inv s' ch' hw' /\ 
    Grown s ch (h_ent h) size s' ch'.
Proof.
  intros s ch hw h size HI (He & Hch & Hp) Hsz. pose proof HI as [H HS']. assert (HS := inv_sz _ _ _ HI). unfold allocate.
  set (e := h_ent h) in *. pose proof (HS' e He) as HSe. unfold cap_of in HSe.
  assert (Eis : is_mini_stream s e = kind s e) by (unfold is_mini_stream, kind; replace (e =? 0) with false by lia; reflexivity).
  rewrite Eis. destruct (kind s e && (mmax s <=? size)) eqn:Emig.
  - (* migration to regular sectors *)
    assert (Hk : kind s e = true) by (destruct (kind s e); auto).
    assert (Hks : (size <? mmax s) = false) by lia.
    destruct (stream_read_ok s ch hw (h_at h 0) (-1) H) as (s1 & E1 & C1 & HC1); cbn [h_ent h_at h_chain h_pos]; fold e; auto; try lia.
    cbn [h_ent h_at h_chain h_pos] in E1. fold e in E1.
    assert (Et : todo_of (e_size (ents s e)) 0 (-1) = e_size (ents s e)) by (unfold todo_of; cbn; lia). rewrite Et in E1.
    rewrite E1. cbn [bind]. set (data := map (sbyte s ch e) (zseq 0 (e_size (ents s e)))) in *.
    assert (Hdl : zlen data = e_size (ents s e)) by (unfold data; rewrite zlen_map, zlen_zseq; lia).
    assert (Ee1 : forall j, ents s1 j = ents s j) by (rewrite C1; auto). rewrite Ee1, Hdl, Z.eqb_refl. cbn [bind].
    assert (H1 : Inv1 s1 ch hw). { split; [eapply CacheOnly_Inv0; eauto; apply H|rewrite C1; apply H]. }
    assert (Ek1 : kind s1 e = true) by (unfold kind in *; rewrite Ee1; rewrite C1; auto).
    destruct (stream_free_ok s1 ch hw e H1 He) as (s2 & E2 & H2 & Ch2 & F2 & K2 & S2). rewrite Ek1, Ee1 in E2. rewrite E2. cbn [bind].
    set (s3 := set_sid s2 e None) in *. set (s4 := set_size s3 e size).
    assert (C03 : Chg e s s3) by (eapply Chg_trans; [apply CacheOnly_Chg; eauto|auto]).
    assert (C04 : Chg e s s4) by (eapply Chg_trans; [eauto|apply set_size_Chg; auto]).
    assert (H4 : Inv1 s4 (zput ch e []) hw).
    { apply set_size_Inv1; auto. right. rewrite zput_same. split; auto. unfold s3. cbn. rewrite Z.eqb_refl. reflexivity. }
    assert (Ek4 : kind s4 e = false) by (unfold s4; rewrite kind_set_size, (c_mmax _ _ _ C03); auto).
    rewrite sector_size_kind, Ek4 by auto. cbn [sec].
    set (count := (size + ss s4 - 1) / ss s4).
    pose proof (i_ss _ _ _ _ _ (proj1 H)) as Hss. assert (Ess4 : ss s4 = ss s) by (apply (c_ss _ _ _ C04)).
    destruct (ceil_bound size (ss s4)) as (Hc1 & Hc2 & Hc3); [lia|lia|]. fold count in Hc1, Hc2, Hc3.
    set (h1 := h_with (h_at (h_at h 0) (0 + e_size (ents s e))) []).
    change (h_chain h1) with (@nil Z).
    destruct (alloc_loop_ok (Z.to_nat (count - zlen (@nil Z))) s4 (zput ch e []) hw h1 false count H4) as [Ho|R].
    + exact He.
    + cbn. fold e. rewrite zput_same. reflexivity.
    + change (h_ent h1) with e. auto.
    + change (h_chain h1) with (@nil Z). lia.
    + left. rewrite Ho. reflexivity.
    + change (h_ent h1) with e in R. destruct R as (s5 & ch5 & hw5 & ext & E5 & H5 & C5 & F5 & K5 & S5 & O5 & P5 & L5).
      rewrite E5. cbn [bind]. rewrite zput_same in L5. change (zlen (@nil Z)) with 0 in L5.
      set (h5 := h_at (h_with h1 (ch5 e)) 0).
      assert (Es5 : e_size (ents s5 e) = size) by (rewrite S5; unfold s4; apply size_set_size).
      assert (C05 : Chg e s s5) by (eapply Chg_trans; eauto).
      assert (Ek5 : kind s5 e = false) by (unfold kind; rewrite Es5, (c_mmax _ _ _ C05); auto).
      assert (Hcap5 : cap_of s5 ch5 e = Z.max count 0 * ss s) by (unfold cap_of; rewrite Ek5, L5; cbn; rewrite (c_ss _ _ _ C05); auto).
      assert (Hsize5 : size <= cap_of s5 ch5 e) by (rewrite Hcap5, Z.max_l by lia; rewrite <- Ess4; auto).
      destruct (write_loop_ok s5 ch5 hw5 e 0 data H5 He ltac:(lia)) as (s6 & E6 & F6 & H6 & DS6 & B6); [lia|].
      unfold write_gen. change (h_ent h5) with e. rewrite Es5. change (h_pos h5) with 0. rewrite Hdl.
      replace (size <? Z.max (0 + e_size (ents s e)) size) with false by lia. cbn [bind]. change (h_ent h5) with e. change (h_chain h5) with (ch5 e). change (h_pos h5) with 0.
      fold (write_loop s5 (kind s5 e) (ch5 e) 0 data).
      replace (if e_size (ents s5 e) <? mmax s5 then write_mini (length data) s5 (ch5 e) (0 / mss s5) (0 mod mss s5) data else write_reg (length data) s5 (ch5 e) (0 / ss s5) (0 mod ss s5) data)
         with (write_loop s5 (kind s5 e) (ch5 e) 0 data) by reflexivity.
      rewrite E6. cbn [bind]. cbn [h_ent h_at h_pos]. change (h_ent h5) with e.
      assert (Es6 : e_size (ents s6 e) = size) by (rewrite F6; cbn; auto). rewrite Es6.
      replace (0 + e_size (ents s e) <=? size) with true by lia. cbn [bind].
      right. exists s6, ch5, hw5. split.
      { f_equal. f_equal. destruct h as [he hp hc]. cbn in *. unfold h5, h1, h_at, h_with. cbn. f_equal. lia. }
      assert (C56 : Chg e s5 s6) by (apply FileOnly_Chg; auto).
      assert (C06 : Chg e s s6) by (eapply Chg_trans; eauto).
      assert (O05 : forall j, j <> e -> ch5 j = ch j) by (intros j Hj; rewrite O5, zput_other by auto; auto).
      assert (Ek6 : kind s6 e = false) by (unfold kind; rewrite Es6, (c_mmax _ _ _ C06); auto).
      split.
      { eapply Inv_change; [exact HI|exact H6|exact C06|auto|]. rewrite Es6. unfold cap_of in *. rewrite Ek6, Ek5 in *. rewrite (Chg_sec _ _ _ _ C56). rewrite Z.max_l in Hcap5 by lia. cbn [sec] in *. rewrite Ess4 in Hc3. rewrite (c_ss _ _ _ C05) in *. lia. }
      constructor; auto.
      * eapply Keeps_trans with (b := s5) (chb := ch5); eauto.
        -- eapply Keeps_file; eauto. rewrite F5. unfold s4, s3. cbn. rewrite F2. rewrite C1. reflexivity.
        -- intros j Hj Hje. split; auto. intros i V. rewrite B6 by auto. replace (j =? e) with false by lia. reflexivity.
      * intros i Hi. rewrite B6.
        -- rewrite Z.eqb_refl. replace ((0 <=? i) && (i <? 0 + zlen data)) with true by lia. cbn [andb].
           replace ((0 <=? i) && (i <? 0 + zlen data)) with true by lia.
           unfold data, nthd. rewrite znth_map, znth_zseq by lia. cbn. f_equal. lia.
        -- split; auto. unfold cap_of in Hsize5. lia.
  - (* same class *)
    assert (Hcls : (size <? mmax s) = kind s e). { unfold kind in *. destruct (e_size (ents s e) <? mmax s) eqn:E1; cbn in Emig; lia. }
    cbn [bind]. set (s4 := set_size s e size).
    assert (C04 : Chg e s s4) by (apply set_size_Chg; auto).
    assert (H4 : Inv1 s4 ch hw) by (apply set_size_Inv1; auto).
    assert (Ek4 : kind s4 e = kind s e) by (unfold s4; rewrite kind_set_size; auto).
    rewrite sector_size_kind, Ek4, (Chg_sec _ _ _ _ C04) by auto. set (m := sec s (kind s e)) in *.
    assert (Hm : 0 < m) by (eapply sec_pos; apply H).
    set (count := (size + m - 1) / m). destruct (ceil_bound size m) as (Hc1 & Hc2 & Hc3); [lia|lia|]. fold count in Hc1, Hc2, Hc3.
    destruct (alloc_loop_ok (Z.to_nat (count - zlen (h_chain h))) s4 ch hw h (kind s e) count H4) as [Ho|R]; auto; try (fold e; auto; lia).
    { left. rewrite Ho. reflexivity. }
    fold e in R. destruct R as (s5 & ch5 & hw5 & ext & E5 & H5 & C5 & F5 & K5 & S5 & O5 & P5 & L5).
    rewrite E5. cbn [bind]. right. exists s5, ch5, hw5. split; auto.
    assert (Es5 : e_size (ents s5 e) = size) by (rewrite S5; unfold s4; apply size_set_size).
    assert (C05 : Chg e s s5) by (eapply Chg_trans; eauto).
    assert (Ek5 : kind s5 e = kind s e) by (unfold kind; rewrite Es5, (c_mmax _ _ _ C05); auto).
    split.
    { eapply Inv_change; [exact HI|exact H5|exact C05|auto|]. rewrite Es5. unfold cap_of. rewrite Ek5, !(Chg_sec _ _ _ _ C05). fold m. rewrite L5. destruct (Z.max_spec count (zlen (ch e))) as [[Hx ->]|[Hx ->]]; nia. }
    constructor; auto.
    + eapply Keeps_file; eauto.
    + intros i Hi. unfold sbyte. rewrite F5, P5, Ek5. unfold s4. cbn. f_equal. eapply saddr_grow; eauto. split; auto. fold m. lia.
Qed.

(** ** Contents *)
Lemma zlen_content : forall s ch e, 0 <= e_size (ents s e) -> zlen (content s ch e) = e_size (ents s e).
Proof. intros. unfold content. rewrite zlen_map, zlen_zseq; auto. Qed.

Lemma znth_content : forall s ch e i, 0 <= i < e_size (ents s e) -> znth (content s ch e) i = Some (sbyte s ch e i).
Proof. intros. unfold content. rewrite znth_map, znth_zseq by lia. cbn. f_equal. Qed.

Lemma content_ext : forall s ch e l, e_size (ents s e) = zlen l ->
  (forall i, 0 <= i < zlen l -> znth l i = Some (sbyte s ch e i)) -> content s ch e = l.
Proof.
  intros s ch e l E H. pose proof (zlen_nonneg _ l). apply znth_ext.
  - rewrite zlen_content; lia.
  - intros i Hi. rewrite zlen_content in Hi by lia. rewrite znth_content, H by lia. auto.
Qed.

Lemma Keeps_content : forall e s ch hw s' ch', Inv s ch hw -> Chg e s s' -> Keeps e s ch s' ch' ->
  forall j, j <> 0 -> j <> e -> content s' ch' j = content s ch j.
Proof.
  intros e s ch hw s' ch' [_ HS] C K j Hj Hje. destruct (K j Hj Hje) as [E B]. unfold content. rewrite (c_ents _ _ _ C) by auto.
  apply map_ext_in. intros i Hi. apply In_zseq in Hi. apply B. split; auto. pose proof (HS j Hj). unfold cap_of in *. lia.
Qed.

(** ** write, cfb.py:243-308 *)
Record Wr (s : cfb) (ch : Z -> list Z) (e : Z) (pos : Z) (data : list Z) (s' : cfb) (ch' : Z -> list Z) : Prop := {
  w_chg : Chg e s s';
  w_keeps : Keeps e s ch s' ch';
  w_content : content s' ch' e = ztake pos (content s ch e) ++ data ++ zdrop (pos + zlen data) (content s ch e) }.

Lemma h_eta : forall h c p, h_at (h_with h c) p = mkh (h_ent h) p c.
Proof. reflexivity. Qed.

Lemma stream_write_ok : forall s ch hw h data, Inv s ch hw -> HInv s ch h ->
  stream_write s h data = Err Overflow \/
  exists s' ch' hw', stream_write s h data = Ok (s', mkh (h_ent h) (h_pos h + zlen data) (ch' (h_ent h))) /\
    Inv s' ch' hw' /\ Wr s ch (h_ent h) (h_pos h) data s' ch'.
Proof.
  intros s ch hw h data HI HH. pose proof HH as (He & Hch & Hp). unfold stream_write, write_gen.
  set (e := h_ent h) in *. set (pos := h_pos h) in *. set (cur := e_size (ents s e)) in *.
  pose proof (zlen_nonneg _ data) as Hdl.
  assert (Ha : (if cur <? Z.max (pos + zlen data) cur then allocate s h (Z.max (pos + zlen data) cur) else Ok (s, h)) = Err Overflow \/
     exists s1 ch1 hw1, (if cur <? Z.max (pos + zlen data) cur then allocate s h (Z.max (pos + zlen data) cur) else Ok (s, h)) =
        Ok (s1, h_with h (ch1 e)) /\ Inv s1 ch1 hw1 /\ Grown s ch e (Z.max (pos + zlen data) cur) s1 ch1).
  { destruct (cur <? Z.max (pos + zlen data) cur) eqn:Ec.
    - destruct (allocate_ok s ch hw h (Z.max (pos + zlen data) cur) HI HH) as [Ho|R]; auto. fold e. fold cur. lia.
    - right. exists s, ch, hw. split; [|split; auto].
      + f_equal. f_equal. destruct h; cbn in *. subst. reflexivity.
      + constructor; auto. apply Chg_refl. intros j Hj Hje. auto. fold cur. lia. }
  destruct Ha as [Ho|(s1 & ch1 & hw1 & E1 & H1 & G)]; [left; rewrite Ho; reflexivity|]. rewrite E1. cbn [bind].
  destruct G as [C1 K1 S1 B1]. fold cur in B1.
  change (h_ent (h_with h (ch1 e))) with e. change (h_chain (h_with h (ch1 e))) with (ch1 e). change (h_pos (h_with h (ch1 e))) with pos.
  replace (if e_size (ents s1 e) <? mmax s1 then write_mini (length data) s1 (ch1 e) (pos / mss s1) (pos mod mss s1) data else write_reg (length data) s1 (ch1 e) (pos / ss s1) (pos mod ss s1) data)
    with (write_loop s1 (kind s1 e) (ch1 e) pos data) by reflexivity.
  pose proof (proj2 H1 e He) as Hcap.
  destruct (write_loop_ok s1 ch1 hw1 e pos data (proj1 H1) He ltac:(lia)) as (s2 & E2 & F2 & H2 & DS2 & B2); [lia|].
  rewrite E2. cbn [bind]. cbn [h_ent h_at h_pos]. change (h_ent (h_with h (ch1 e))) with e.
  assert (S2 : e_size (ents s2 e) = Z.max (pos + zlen data) cur) by (rewrite F2; cbn; auto).
  rewrite S2. replace (pos + zlen data <=? Z.max (pos + zlen data) cur) with true by lia. cbn [bind].
  right. exists s2, ch1, hw1. split; [reflexivity|].
  assert (C12 : Chg e s1 s2) by (apply FileOnly_Chg; auto).
  assert (HI2 : Inv s2 ch1 hw1).
  { eapply Inv_change; [exact H1|exact H2|exact C12|auto|]. unfold cap_of in *.
    assert (Ek : kind s2 e = kind s1 e) by (rewrite F2; reflexivity). rewrite Ek, (Chg_sec _ _ _ _ C12). lia. }
  split; auto. constructor.
  - eapply Chg_trans; eauto.
  - eapply Keeps_trans; eauto. intros j Hj Hje. split; auto. intros i V. rewrite B2 by auto. replace (j =? e) with false by lia. reflexivity.
  - assert (Hlc : zlen (content s ch e) = cur) by (apply zlen_content; lia).
    assert (Hl1 : zlen (ztake pos (content s ch e)) = pos) by (rewrite zlen_ztake; lia).
    apply content_ext.
    + rewrite S2, !zlen_app, Hl1, zlen_zdrop by lia. lia.
    + rewrite !zlen_app, Hl1, zlen_zdrop, Hlc by lia. intros i Hi.
      rewrite B2; [|split; auto; unfold cap_of in Hcap; lia]. rewrite Z.eqb_refl. cbn [andb].
      destruct (Z.lt_ge_cases i pos).
      * rewrite znth_app1 by lia. rewrite znth_ztake. replace (i <? pos) with true by lia.
        replace ((pos <=? i) && (i <? pos + zlen data)) with false by lia. rewrite znth_content by lia. f_equal. symmetry. apply B1. lia.
      * rewrite znth_app2 by lia. rewrite Hl1. destruct (Z.lt_ge_cases i (pos + zlen data)).
        -- replace ((pos <=? i) && (i <? pos + zlen data)) with true by lia. rewrite znth_app1 by lia.
           unfold nthd. destruct (znth_in_range _ data (i - pos)) as [b Eb]; [lia|]. rewrite Eb. auto.
        -- replace ((pos <=? i) && (i <? pos + zlen data)) with false by lia. rewrite znth_app2 by lia.
           rewrite znth_zdrop by lia. rewrite znth_content by lia. replace (pos + zlen data + (i - pos - zlen data)) with i by lia.
           f_equal. symmetry. apply B1. lia.
Qed.

(** ** Seeking past the end, cfb.py:97-118 *)
Record Set_ (s : cfb) (ch : Z -> list Z) (e : Z) (c : list Z) (s' : cfb) (ch' : Z -> list Z) : Prop := {
  se_chg : Chg e s s';
  se_keeps : Keeps e s ch s' ch';
  se_content : content s' ch' e = c }.

Lemma Keeps_refl : forall e s ch, Keeps e s ch s ch.
Proof. intros e s ch j Hj Hje. auto. Qed.

Lemma zeros_add : forall a b, 0 <= a -> 0 <= b -> zeros (a + b) = zeros a ++ zeros b.
Proof. intros. unfold zeros. rewrite Z2Nat.inj_add by lia. apply repeat_app. Qed.

Lemma pad_loop_ok : forall fuel s ch hw h off left, Inv s ch hw -> HInv s ch h ->
  h_pos h = e_size (ents s (h_ent h)) -> left = off - h_pos h -> 0 <= left <= Z.of_nat fuel ->
  pad_loop fuel s h off left = Err Overflow \/
  exists s' ch' hw', pad_loop fuel s h off left = Ok (s', mkh (h_ent h) off (ch' (h_ent h))) /\
    Inv s' ch' hw' /\ Set_ s ch (h_ent h) (content s ch (h_ent h) ++ zeros left) s' ch'.
Proof.
  induction fuel as [|n IH]; intros s ch hw h off left HI HH Hpos Hl Hf; cbn [pad_loop].
  - replace (left =? 0) with true by lia. right. exists s, ch, hw. split; [|split; auto].
    + destruct HH as (_ & Hc & _). destruct h; cbn in *. subst. f_equal. f_equal. f_equal. lia.
    + replace left with 0 by lia. constructor; [apply Chg_refl|apply Keeps_refl|]. rewrite app_nil_r. auto.
  - destruct (left =? 0) eqn:El.
    { right. exists s, ch, hw. split; [|split; auto].
      + destruct HH as (_ & Hc & _). destruct h; cbn in *. subst. f_equal. f_equal. f_equal. lia.
      + replace left with 0 by lia. constructor; [apply Chg_refl|apply Keeps_refl|]. rewrite app_nil_r. auto. }
    set (k := Z.min (ss s * 4) (off - e_size (ents s (h_ent h)))). pose proof (i_ss _ _ _ _ _ (proj1 (proj1 HI))).
    assert (Hk : 1 <= k <= left) by lia.
    destruct (stream_write_ok s ch hw h (zeros k) HI HH) as [Ho|(s1 & ch1 & hw1 & E1 & H1 & W)]; [left; rewrite Ho; reflexivity|].
    rewrite E1. cbn [bind]. rewrite zlen_zeros in * by lia. destruct W as [C1 K1 N1]. pose proof HH as (He & Hch & Hp).
    assert (N1' : content s1 ch1 (h_ent h) = content s ch (h_ent h) ++ zeros k).
    { rewrite N1. rewrite Hpos. rewrite zlen_zeros by lia. assert (Hlc : zlen (content s ch (h_ent h)) = e_size (ents s (h_ent h))) by (apply zlen_content; lia).
      rewrite ztake_all by lia. f_equal. rewrite zdrop_all by lia. apply app_nil_r. }
    assert (S1 : e_size (ents s1 (h_ent h)) = h_pos h + k).
    { pose proof (f_equal zlen N1') as L. rewrite zlen_app, zlen_zeros in L by lia.
      rewrite !zlen_content in L; try lia. apply (inv_sz _ _ _ H1). auto. }
    destruct (IH s1 ch1 hw1 (mkh (h_ent h) (h_pos h + k) (ch1 (h_ent h))) off (left - k)) as [Ho|R]; auto; cbn [h_ent h_pos]; try lia.
    + split; [auto|]. split; auto. cbn. lia.
    + cbn [h_ent] in R. right. destruct R as (s2 & ch2 & hw2 & E2 & H2 & [C2 K2 N2]). exists s2, ch2, hw2.
      split; auto. split; auto. constructor.
      * eapply Chg_trans; eauto.
      * eapply Keeps_trans; eauto.
      * rewrite N2, N1', <- app_assoc. f_equal. rewrite <- zeros_add by lia. f_equal. lia.
Qed.

Definition seek_target (size pos offset : Z) (w : whence) : Z :=
  match w with SEEK_SET => offset | SEEK_CUR => pos + offset | SEEK_END => size + offset end.

Lemma stream_seek_ok : forall s ch hw h offset w, Inv s ch hw -> HInv s ch h ->
  let size := e_size (ents s (h_ent h)) in let off := seek_target size (h_pos h) offset w in
  (off < 0 /\ stream_seek s h offset w = Err ValueError) \/
  (0 <= off /\ stream_seek s h offset w = Err Overflow) \/
  (0 <= off /\ exists s' ch' hw', stream_seek s h offset w = Ok (s', mkh (h_ent h) off (ch' (h_ent h)), off) /\
    Inv s' ch' hw' /\ Set_ s ch (h_ent h) (content s ch (h_ent h) ++ zeros (off - size)) s' ch').
Proof.
  intros s ch hw h offset w HI HH size off. pose proof HH as (He & Hch & Hp). unfold stream_seek.
  fold size. change (match w with SEEK_SET => offset | SEEK_CUR => h_pos h + offset | SEEK_END => size + offset end) with off.
  destruct (Z.lt_ge_cases off 0) as [Hn|Hn].
  { left. split; auto. replace (0 <=? off) with false by lia. reflexivity. }
  replace (0 <=? off) with true by lia. cbn [bind]. right. destruct (size <? off) eqn:Es.
  - destruct (pad_loop_ok (Z.to_nat (off - size)) s ch hw (h_at h size) off (off - size) HI) as [Ho|R]; cbn [h_ent h_at h_pos]; auto; try lia.
    + split; [auto|]. split; auto. cbn. fold size in Hp |- *. lia.
    + left. rewrite Ho. auto.
    + right. split; auto. destruct R as (s1 & ch1 & hw1 & E1 & H1 & S1). rewrite E1. cbn [bind]. exists s1, ch1, hw1. split; auto.
  - right. split; auto. exists s, ch, hw. cbn [bind]. split; [|split; auto].
    + destruct h; cbn in *. subst. reflexivity.
    + constructor; [apply Chg_refl|apply Keeps_refl|].
      replace (zeros (off - size)) with (@nil Z); [rewrite app_nil_r; auto|]. unfold zeros. replace (Z.to_nat (off - size)) with 0%nat by lia. reflexivity.
Qed.

(** ** truncate, cfb.py:310-369 *)
Lemma content_same_file : forall s ch s' ch' e n, e_size (ents s' e) = n -> 0 <= n <= e_size (ents s e) ->
  (forall i, 0 <= i < n -> sbyte s' ch' e i = sbyte s ch e i) -> content s' ch' e = ztake n (content s ch e).
Proof.
  intros s ch s' ch' e n E Hn H.
  assert (Hl : zlen (ztake n (content s ch e)) = n) by (rewrite zlen_ztake, zlen_content by lia; lia).
  apply content_ext; [lia|]. rewrite Hl. intros i Hi. rewrite znth_ztake. replace (i <? n) with true by lia.
  rewrite znth_content by lia. f_equal. symmetry. auto.
Qed.

Lemma content_nil : forall s ch e, e_size (ents s e) = 0 -> content s ch e = [].
Proof. intros s ch e H. unfold content. rewrite H. reflexivity. Qed.

(** dropping the whole content of [e]: free_fat_chain; sector_id = None; byte_size = 0 *)
Lemma drop_ok : forall s ch hw e, Inv s ch hw -> e <> 0 ->
  exists s1, free_fat_chain s (e_sid (ents s e)) (kind s e) = Ok s1 /\
    let s' := set_size (set_sid s1 e None) e 0 in
    Inv s' (zput ch e []) hw /\ Set_ s ch e [] s' (zput ch e []) /\ e_size (ents s' e) = 0 /\ e_sid (ents s' e) = None.
Proof.
  intros s ch hw e HI He. destruct (stream_free_ok s ch hw e (proj1 HI) He) as (s1 & E & H1 & C1 & F1 & K1 & S1).
  exists s1. split; auto. intros s'.
  assert (C2 : Chg e s s') by (eapply Chg_trans; [exact C1|apply set_size_Chg; auto]).
  assert (H2 : Inv1 s' (zput ch e []) hw).
  { apply set_size_Inv1; auto. right. rewrite zput_same. split; auto. cbn. rewrite Z.eqb_refl. auto. }
  assert (S2 : e_size (ents s' e) = 0) by apply size_set_size.
  split; [|split; [|split]].
  - eapply Inv_change; [exact HI|exact H2|exact C2| |].
    + intros j Hj. apply zput_other; auto.
    + rewrite S2. unfold cap_of. rewrite zput_same. change (zlen (@nil Z)) with 0. pose proof (sec_pos _ _ _ _ _ (kind s' e) (proj1 H2)). lia.
  - constructor; auto.
    + eapply Keeps_file; eauto. apply HI. intros j Hj. apply zput_other; auto.
    + apply content_nil. auto.
  - auto.
  - cbn. rewrite !Z.eqb_refl. reflexivity.
Qed.

Lemma is_mini_kind : forall s e, e <> 0 -> is_mini_stream s e = kind s e.
Proof. intros. unfold is_mini_stream, kind. replace (e =? 0) with false by lia. reflexivity. Qed.

Lemma stream_truncate_ok : forall s ch hw h arg, Inv s ch hw -> HInv s ch h ->
  let e := h_ent h in let n := match arg with Some n => n | None => h_pos h end in let size := e_size (ents s e) in
  0 <= n ->
  stream_truncate s h arg = Err Overflow \/
  exists s' ch' hw', stream_truncate s h arg = Ok (s', mkh e (Z.min (h_pos h) n) (ch' e)) /\ Inv s' ch' hw' /\
    Chg e s s' /\ Keeps e s ch s' ch' /\ e_size (ents s' e) = n /\
    ztake size (content s' ch' e) = ztake n (content s ch e).
Proof.
  intros s ch hw h arg HI HH e n size Hn. pose proof HH as (He & Hch & Hp). unfold stream_truncate.
  fold e. fold n. fold size. fold e in He, Hch, Hp. fold size in Hp.
  rewrite is_mini_kind by auto.
  assert (Hlc : zlen (content s ch e) = size) by (apply zlen_content; fold size; lia).
  destruct (n =? 0) eqn:En0.
  { destruct (drop_ok s ch hw e HI He) as (s1 & E1 & H1 & [C1 K1 N1] & S1 & _). rewrite E1. cbn [bind].
    right. exists (set_size (set_sid s1 e None) e 0), (zput ch e []), hw. rewrite zput_same. split; [replace (Z.min (h_pos h) n) with 0 by lia; reflexivity|].
    cbv zeta in *.
    split; auto. split; auto. split; auto. split; [lia|]. rewrite N1. replace n with 0 by lia.
    transitivity (@nil Z); [apply ztake_all; change (zlen (@nil Z)) with 0; lia|]. unfold ztake. replace (Z.to_nat (Z.min 0 (zlen (content s ch e)))) with 0%nat by lia. reflexivity. }
  destruct (size <? n) eqn:Egrow.
  { destruct (allocate_ok s ch hw h n HI HH) as [Ho|(s1 & ch1 & hw1 & E1 & H1 & [C1 K1 S1 B1])]; [fold e; fold size; lia|auto|].
    right. exists s1, ch1, hw1. split; [rewrite E1; replace (Z.min (h_pos h) n) with (h_pos h) by lia; reflexivity|].
    fold e in C1, K1, S1, B1. split; auto. split; auto. split; auto. split; auto.
    rewrite (ztake_all _ n) by lia. fold size in B1.
    assert (Hl1 : zlen (content s1 ch1 e) = n) by (rewrite zlen_content; lia).
    apply znth_ext. { rewrite zlen_ztake by lia. lia. }
    intros i Hi. rewrite zlen_ztake in Hi by lia. rewrite znth_ztake. replace (i <? size) with true by lia.
    rewrite !znth_content by lia. f_equal. apply B1. lia. }
  assert (Hpre : forall c : list Z, zlen c <= size -> ztake size c = c) by (intros; apply ztake_all; auto).
  destruct ((n <? mmax s) && negb (kind s e) && negb (e =? 0)) eqn:Emig.
  - (* back into the mini stream *)
    destruct (stream_read_ok s ch hw (h_at h 0) n (proj1 HI)) as (s1 & E1 & C1 & HC1); cbn [h_ent h_at h_chain h_pos]; fold e; auto; try lia.
    { apply (inv_sz _ _ _ HI). auto. }
    cbn [h_ent h_at h_chain h_pos] in E1. fold e in E1. fold size in E1.
    assert (Et : todo_of size 0 n = n) by (unfold todo_of; replace (n =? -1) with false by lia; lia). rewrite Et in E1.
    rewrite E1. cbn [bind]. set (data := map (sbyte s ch e) (zseq 0 n)) in *.
    assert (Hd : data = ztake n (content s ch e)).
    { apply znth_ext. unfold data. rewrite zlen_map, zlen_zseq, zlen_ztake; lia.
      unfold data. rewrite zlen_map, zlen_zseq by lia. intros i Hi. rewrite znth_map, znth_zseq by lia. rewrite znth_ztake. replace (i <? n) with true by lia.
      rewrite znth_content by (fold size; lia). reflexivity. }
    assert (Ee1 : forall j, ents s1 j = ents s j) by (rewrite C1; auto). rewrite Ee1.
    assert (HI1 : Inv s1 ch hw).
    { eapply Inv_change with (e := e); [exact HI| |apply CacheOnly_Chg; auto|auto|].
      - split; [eapply CacheOnly_Inv0; eauto; apply HI|rewrite C1; apply HI].
      - rewrite Ee1. unfold cap_of. assert (Ek : kind s1 e = kind s e) by (rewrite C1; reflexivity). rewrite Ek.
        assert (Es : sec s1 (kind s e) = sec s (kind s e)) by (rewrite C1; reflexivity). rewrite Es. apply (proj2 HI). auto. }
    destruct (drop_ok s1 ch hw e HI1 He) as (s2 & E2 & H2 & [C2 K2 N2] & S2 & _).
    assert (Ek1 : kind s1 e = false) by (assert (Ek : kind s1 e = kind s e) by (rewrite C1; reflexivity); rewrite Ek; destruct (kind s e); auto; cbn in Emig; rewrite ?andb_false_r in Emig; discriminate).
    rewrite Ek1, Ee1 in E2. rewrite E2. cbn [bind]. set (s3 := set_size (set_sid s2 e None) e 0) in *.
    destruct (stream_write_ok s3 (zput ch e []) hw (mkh e 0 []) data H2) as [Ho|(s4 & ch4 & hw4 & E4 & H4 & [C4 K4 N4])].
    { split; [auto|]. split; [cbn; rewrite zput_same; auto|]. cbn [h_pos h_ent]. rewrite S2. lia. }
    { left. rewrite Ho. reflexivity. }
    cbn [h_ent h_pos] in *. rewrite E4. cbn [bind].
    rewrite N2 in N4. assert (N4' : content s4 ch4 e = data).
    { rewrite N4. rewrite zdrop_all by (change (zlen (@nil Z)) with 0; pose proof (zlen_nonneg _ data); lia).
      rewrite app_nil_r. rewrite ztake_all by (change (zlen (@nil Z)) with 0; lia). auto. }
    assert (S4 : e_size (ents s4 e) = n).
    { rewrite <- (zlen_content s4 ch4) by (apply (inv_sz _ _ _ H4); auto). rewrite N4', Hd, zlen_ztake; lia. }
    rewrite S4, Z.eqb_refl. cbn [bind]. right. exists s4, ch4, hw4.
    split; [reflexivity|]. split; auto.
    assert (C13 : Chg e s s3) by (eapply Chg_trans; [apply CacheOnly_Chg; eauto|auto]).
    split; [eapply Chg_trans; eauto|]. split.
    { eapply Keeps_trans; [exact C13| |exact K4]. eapply Keeps_trans; [apply CacheOnly_Chg; eauto| |exact K2].
      eapply Keeps_file; eauto. apply HI. apply CacheOnly_Chg; eauto. rewrite C1. reflexivity. }
    split; auto. rewrite N4', Hd. apply Hpre. rewrite zlen_ztake; lia.
  - (* same class *)
    assert (Hcls : (n <? mmax s) = kind s e).
    { unfold kind in *. fold size in Emig |- *. replace (negb (e =? 0)) with true in Emig by lia. destruct (size <? mmax s) eqn:E1; cbn in Emig; lia. }
    replace (if kind s e then mss s else ss s) with (sec s (kind s e)) by reflexivity.
    set (m := sec s (kind s e)). assert (Hm : 0 < m) by (eapply sec_pos; apply HI).
    set (count := (n + m - 1) / m). destruct (ceil_bound n m Hm Hn) as (Hc1 & Hc2 & Hc3). fold count in Hc1, Hc2, Hc3.
    assert (Hc0 : 1 <= count) by nia. rewrite Hch.
    pose proof (proj2 HI e He) as Hcap. unfold cap_of in Hcap. fold m in Hcap. fold size in Hcap.
    assert (Hcut : exists s1 ch1, (if count <? zlen (ch e) then
         match znth (ch e) (count - 1), znth (ch e) count with
         | Some l, Some nx =>
           do s1 <- free_fat_chain s (Some nx) (kind s e) ;;
           Ok (set_table s1 (kind s e) (zupd (table s1 (kind s e)) l ENDOFCHAIN), ztake count (ch e))
         | _, _ => Err IndexError
         end
       else Ok (s, ch e)) = Ok (s1, ch1 e) /\ Inv1 s1 ch1 hw /\ Chg e s s1 /\ file s1 = file s /\ (forall j, ents s1 j = ents s j) /\
         (exists rest, ch e = ch1 e ++ rest) /\ (n <= zlen (ch1 e) * m /\ zlen (ch1 e) * m < n + m) /\ (forall j, j <> e -> ch1 j = ch j)).
    { destruct (count <? zlen (ch e)) eqn:Ec.
      - destruct (znth_in_range _ (ch e) (count - 1)) as [l El]; [lia|]. destruct (znth_in_range _ (ch e) count) as [y Ey]; [lia|].
        rewrite El, Ey.
        assert (Esp : ch e = ztake count (ch e) ++ y :: zdrop (count + 1) (ch e)).
        { rewrite <- (ztake_zdrop _ count (ch e)) at 1. f_equal. apply znth_ext.
          - change (y :: zdrop (count + 1) (ch e)) with ([y] ++ zdrop (count + 1) (ch e)). rewrite zlen_app, !zlen_zdrop by lia. change (zlen [y]) with 1. lia.
          - intros i Hi. rewrite zlen_zdrop in Hi by lia. rewrite znth_zdrop by lia.
            change (y :: zdrop (count + 1) (ch e)) with ([y] ++ zdrop (count + 1) (ch e)). destruct (Z.eq_dec i 0) as [->|Ni].
            + rewrite znth_app1 by (change (zlen [y]) with 1; lia). rewrite Z.add_0_r. exact Ey.
            + rewrite znth_app2 by (change (zlen [y]) with 1; lia). change (zlen [y]) with 1. rewrite znth_zdrop by lia. f_equal. lia. }
        assert (Hl1 : zlen (ztake count (ch e)) = count) by (rewrite zlen_ztake; lia).
        assert (Hlast : last (ztake count (ch e)) 0 = l).
        { assert (Hne : ztake count (ch e) <> []) by (intros E; rewrite E in Hl1; change (zlen (@nil Z)) with 0 in Hl1; lia).
          pose proof (app_removelast_last 0 Hne) as Er.
          assert (Ez : znth (ztake count (ch e)) (count - 1) = Some l) by (rewrite znth_ztake; replace (count - 1 <? count) with true by lia; auto).
          rewrite Er in Ez. pose proof (f_equal zlen Er) as Lr. rewrite zlen_app in Lr. unfold zlen at 3 in Lr. cbn in Lr.
          rewrite znth_app2 in Ez by lia. replace (count - 1 - zlen (removelast (ztake count (ch e)))) with 0 in Ez by lia.
          cbn in Ez. injection Ez. auto. }
        destruct (cut_stream s ch hw e (ztake count (ch e)) y (zdrop (count + 1) (ch e)) (proj1 (proj1 HI)) He Esp) as (s1 & E1 & H1 & F1 & M1).
        { intros E; rewrite E in Hl1; change (zlen (@nil Z)) with 0 in Hl1; lia. }
        rewrite E1. cbn [bind]. rewrite Hlast in H1.
        set (s2 := set_table s1 (kind s e) (zupd (table s1 (kind s e)) l ENDOFCHAIN)) in *.
        assert (F2 : Frame s1 s2) by (unfold s2; destruct (kind s e); constructor; auto; exists []; rewrite app_nil_r; reflexivity).
        assert (M2 : mini_chain s2 = mini_chain s) by (unfold s2; destruct (kind s e); exact M1).
        pose proof (Frame_trans _ _ _ F1 F2) as F.
        exists s2, (zput ch e (ztake count (ch e))). rewrite zput_same. split; auto. split.
        { split; auto. unfold cover. rewrite M2, (f_ss _ _ F), (f_mss _ _ F). apply HI. }
        split; [apply Frame_Chg; auto|]. split; [apply (f_file _ _ F)|]. split.
        { intros j. destruct (Z.eq_dec j 0) as [->|Nj]; [|apply (f_ents _ _ F); auto].
          assert (e_sid (ents s2 0) = e_sid (ents s 0)) as Es0.
          { clear - E1. unfold free_fat_chain in E1. destruct (get_fat_chain _ _); cbn in E1; [|discriminate]. injection E1 as <-. unfold s2. destruct (kind s e); reflexivity. }
          pose proof (f_root _ _ F). destruct (ents s2 0), (ents s 0); cbn in *; congruence. }
        split; [eauto|]. split; [rewrite Hl1; lia|]. intros j Hj. apply zput_other; auto.
      - exists s, ch. split; auto. split; [apply HI|]. split; [apply Chg_refl|]. split; auto. split; auto.
        split; [exists []; rewrite app_nil_r; auto|]. split; [split; [lia|nia]|]. auto. }
    destruct Hcut as (s1 & ch1 & Ecut & H1 & C1 & F1 & En1 & (rest & Erest) & Hcap1 & O1).
    rewrite Ecut. cbn [bind]. right. exists (set_size s1 e n), ch1, hw. split; auto.
    assert (C2 : Chg e s (set_size s1 e n)) by (eapply Chg_trans; [eauto|apply set_size_Chg; auto]).
    assert (Ek2 : kind (set_size s1 e n) e = kind s e) by (rewrite kind_set_size, (c_mmax _ _ _ C1); auto).
    assert (Ek1 : kind s1 e = kind s e) by (unfold kind; rewrite En1, (c_mmax _ _ _ C1); auto).
    assert (H2 : Inv1 (set_size s1 e n) ch1 hw).
    { apply set_size_Inv1; auto. left. rewrite Ek1, (c_mmax _ _ _ C1). auto. }
    split.
    { eapply Inv_change; [exact HI|exact H2|exact C2|auto|]. rewrite size_set_size. unfold cap_of. rewrite Ek2, (Chg_sec _ _ _ _ C2). fold m. lia. }
    split; auto. split; [eapply Keeps_file; eauto; apply HI|].
    split; [apply size_set_size|].
    rewrite Hpre by (rewrite zlen_content; rewrite size_set_size; lia).
    apply content_same_file; [apply size_set_size|fold size; lia|].
    intros i Hi. unfold sbyte. cbn [file set_size set_ents]. rewrite F1, Ek2, Erest. f_equal.
    symmetry. rewrite <- Ek1.
    assert (saddr s (ch1 e ++ rest) (kind s1 e) i = saddr s1 (ch1 e ++ rest) (kind s1 e) i) as ->.
    { rewrite <- Erest, Ek1. symmetry. eapply saddr_chg; eauto. apply HI. split; auto. fold m. lia. }
    assert (saddr (set_size s1 e n) (ch1 e) (kind s1 e) i = saddr s1 (ch1 e) (kind s1 e) i) as -> by reflexivity.
    eapply saddr_grow; [exact H1|apply Chg_refl|]. split; auto. rewrite Ek1, (Chg_sec _ _ _ _ C1). fold m. lia.
Qed.

(** ** Opening and dropping *)
Lemma stream_open_ok : forall s ch hw e, Inv s ch hw -> e <> 0 -> stream_open s e = Ok (mkh e 0 (ch e)).
Proof.
  intros s ch hw e [[H Hc] _] He. unfold stream_open. rewrite is_mini_kind by auto.
  assert (Ho : chain_owner (OStr e)) by (split; discriminate).
  assert (Hlink : linked (table s (kind s e)) (e_sid (ents s e)) (ch e)).
  { destruct (kind s e) eqn:Ek.
    - pose proof (ti_link _ _ _ (i_mt _ _ _ _ _ H) _ Ho) as HL. cbn in HL. rewrite mini_kind, Ek in HL by auto. exact HL.
    - pose proof (ti_link _ _ _ (i_ft _ _ _ _ _ H) _ Ho) as HL. cbn in HL. rewrite reg_kind, Ek in HL by auto. exact HL. }
  rewrite (linked_get _ _ _ Hlink). reflexivity.
Qed.

Lemma stream_reset_ok : forall s ch hw e, Inv s ch hw -> e <> 0 ->
  exists s', stream_reset s e = Ok (s', mkh e 0 []) /\ Inv s' (zput ch e []) hw /\ Set_ s ch e [] s' (zput ch e []).
Proof.
  intros s ch hw e HI He. unfold stream_reset. fold (kind s e).
  destruct (drop_ok s ch hw e HI He) as (s1 & E1 & H1 & S1 & _). rewrite E1. cbn [bind].
  exists (set_size (set_sid s1 e None) e 0). rewrite (stream_open_ok _ _ _ _ H1 He). cbn [bind]. rewrite zput_same. auto.
Qed.

(** ** Directory ids *)
Definition DInv (s : cfb) (live : list Z) : Prop :=
  128 <= ss s /\ ss s mod 128 = 0 /\ NoDup (dir_free s ++ 0 :: live) /\
  (forall i, In i (dir_free s ++ 0 :: live) -> 0 <= i < zlen (dir_chain s) * (ss s / 128)) /\
  (forall i, ~ In i (0 :: live) -> ents s i = mkent None 0).

Lemma set_dir_Inv0 : forall s ch fl ml hw n fr, Inv0 s ch fl ml hw -> Inv0 (set_dir s (dir_chain s) n fr) ch fl ml hw.
Proof. intros s ch fl ml hw n fr []. constructor; auto. Qed.

(** what taking or giving back an id may change *)
Record ChgD (s s' : cfb) : Prop := {
  d_ss : ss s' = ss s; d_mss : mss s' = mss s; d_mmax : mmax s' = mmax s; d_ccap : ccap s' = ccap s; d_file : file s' = file s;
  d_ents : forall j, j <> 0 -> ents s' j = ents s j;
  d_cont : mini_chain s' = mini_chain s }.

Lemma next_free_dir_id_ok : forall s ch hw live, Inv s ch hw -> DInv s live ->
  next_free_dir_id s = Err Overflow \/
  exists s' i, next_free_dir_id s = Ok (s', i) /\ Inv s' ch hw /\ ChgD s s' /\ ~ In i (0 :: live) /\ DInv s' (i :: live).
Proof.
  intros s ch hw live HI HD. destruct HD as (D1 & D2 & D3 & D4 & D5). unfold next_free_dir_id. cbn [next_free_dir_id_f].
  assert (Hpop : forall s i rest, Inv s ch hw -> 128 <= ss s -> ss s mod 128 = 0 -> NoDup (dir_free s ++ 0 :: live) ->
     (forall i, In i (dir_free s ++ 0 :: live) -> 0 <= i < zlen (dir_chain s) * (ss s / 128)) ->
     (forall i, ~ In i (0 :: live) -> ents s i = mkent None 0) -> dir_free s = i :: rest ->
     let s' := set_dir s (dir_chain s) (dir_cnt s) rest in
     Inv s' ch hw /\ ChgD s s' /\ ~ In i (0 :: live) /\ DInv s' (i :: live)).
  { clear. intros s i rest HI D1 D2 D3 D4 D5 Ef s'. rewrite Ef in *.
    assert (Hni : ~ In i (0 :: live)). { cbn [app] in D3. inversion D3; subst. intro. apply H1. apply in_or_app. auto. }
    split; [|split; [|split]]; auto.
    - destruct HI as [[H Hc] HS]. split; [split; [apply set_dir_Inv0; auto|auto]|auto].
    - constructor; auto.
    - split; auto. split; auto. split; [|split].
      + cbn. cbn [app] in D3. apply NoDup_cons_iff in D3. destruct D3 as [N1 N2].
        apply NoDup_app_iff in N2. destruct N2 as (M1 & M2 & M3). apply NoDup_app_iff. split; auto. split.
        * constructor; [|constructor].
          -- intros [E|E]; [subst; apply Hni; left; auto|]. inversion M2; auto.
          -- intro. apply Hni. right. auto.
          -- inversion M2; auto.
        * intros x Hx [<-|[<-|Hy]].
          -- apply (M3 0 Hx). left; auto.
          -- apply N1. apply in_or_app. auto.
          -- apply (M3 x Hx). right; auto.
      + intros j Hj. cbn [dir_chain ss set_dir s']. apply D4. cbn. cbn [dir_free set_dir s'] in Hj.
        apply in_app_or in Hj. destruct Hj as [Hj|[Hj|[Hj|Hj]]]; auto; right; apply in_or_app; cbn; auto.
      + intros j Hj. cbn. apply D5. intros [K|K]; apply Hj; [left|right; right]; auto. }
  destruct (dir_free s) as [|i rest] eqn:Ef.
  2:{ right. eexists _, i. split; [reflexivity|]. apply Hpop; auto; rewrite Ef; auto. }
  pose proof HI as [[H Hc] HS]. pose proof (i_dir _ _ _ _ _ H) as Hdir.
  destruct (dir_chain s) as [|c0 cs] eqn:Ec; [congruence|].
  rewrite <- Ec. destruct (append_dir s ch hw H) as [Ho|(s1 & i & E1 & F & M1 & H1)]; [left; rewrite Ho; reflexivity|].
  rewrite E1. cbn [bind]. set (c := dir_chain s1 ++ [i]).
  assert (Ess : ss s1 = ss s) by apply (f_ss _ _ F).
  assert (Hlc : zlen c = zlen (dir_chain s) + 1) by (unfold c; rewrite zlen_app, (f_dir _ _ F); reflexivity).
  set (per := ss s / 128) in *. assert (Hper : 1 <= per) by (unfold per; apply Z.div_le_lower_bound; lia).
  assert (E128 : ss s = per * 128) by (unfold per; pose proof (Z.div_mod (ss s) 128 ltac:(lia)); lia).
  assert (Hfirst : (zlen c - 1) * ss s1 / 128 = zlen (dir_chain s) * per).
  { rewrite Ess, Hlc, E128. replace ((zlen (dir_chain s) + 1 - 1) * (per * 128)) with (zlen (dir_chain s) * per * 128) by lia. apply Z.div_mul. lia. }
  rewrite Hfirst. rewrite Ess. fold per. rewrite (f_dfree _ _ F), Ef. cbn [app].
  set (first := zlen (dir_chain s) * per). set (s2 := set_dir s1 c (dir_cnt s1 + 1) (zseq first per)).
  assert (Esq : zseq first per = first :: zseq (first + 1) (per - 1)) by (apply zseq_cons; lia).
  assert (Hfirst0 : 0 <= first) by (unfold first; pose proof (zlen_nonneg _ (dir_chain s)); nia).
  assert (HI2 : Inv s2 ch hw).
  { split; [split; [apply H1|]|].
    - unfold cover in *. cbn. rewrite M1, Ess, (f_mss _ _ F). auto.
    - intros j Hj. unfold cap_of, sec, kind. cbn. rewrite (f_ents _ _ F), (f_mss _ _ F), (f_ss _ _ F), (f_mmax _ _ F) by auto. apply HS; auto. }
  assert (Hroot : ents s1 0 = ents s 0 \/ True) by auto.
  destruct (Hpop s2 first (zseq (first + 1) (per - 1)) HI2) as (P1 & P2 & P3 & P4).
  - cbn. lia.
  - cbn. rewrite Ess. auto.
  - cbn [dir_free s2 set_dir]. cbn [app] in D3. apply NoDup_app_iff. split; [apply NoDup_zseq|]. split; auto.
    intros x Hx Hy. apply In_zseq in Hx. specialize (D4 x Hy). unfold first in Hx. rewrite Ec in Hx. lia.
  - cbn [dir_free dir_chain ss s2 set_dir]. rewrite Hlc, Ess. fold per. intros j Hj. apply in_app_or in Hj. destruct Hj as [Hj|Hj].
    + apply In_zseq in Hj. unfold first in Hj. lia.
    + specialize (D4 j Hj). rewrite Ec. lia.
  - intros j Hj. cbn. rewrite (f_ents _ _ F); auto. intro; subst; apply Hj; left; auto.
  - cbn. exact Esq.
  - right. change (dir_free s2) with (zseq first per). rewrite Esq. eexists _, first. split; [reflexivity|].
    split; [exact P1|]. split; [|split; [exact P3|exact P4]].
    destruct P2. constructor; cbn in *; try congruence.
    + rewrite (f_mss _ _ F). auto.
    + rewrite (f_mmax _ _ F). auto.
    + rewrite (f_ccap _ _ F). auto.
    + rewrite (f_file _ _ F). auto.
    + intros j Hj. apply (f_ents _ _ F). auto.
Qed.

Lemma ChgD_content : forall s s' ch hw, Inv s ch hw -> ChgD s s' -> forall j, j <> 0 -> content s' ch j = content s ch j.
Proof.
  intros s s' ch hw H [] j Hj. unfold content, sbyte. rewrite d_ents0 by auto. apply map_ext. intros i.
  unfold kind. rewrite d_ents0, d_mmax0, d_file0 by auto. f_equal. unfold saddr, caddr. rewrite d_ss0, d_mss0, d_cont0. reflexivity.
Qed.

Lemma entry_new_ok : forall s ch hw live, Inv s ch hw -> DInv s live ->
  entry_new s = Err Overflow \/
  exists s' i, entry_new s = Ok (s', i) /\ Inv s' ch hw /\ ChgD s s' /\ ~ In i (0 :: live) /\ DInv s' (i :: live) /\ e_size (ents s' i) = 0.
Proof.
  intros s ch hw live HI HD. unfold entry_new. destruct (next_free_dir_id_ok s ch hw live HI HD) as [Ho|(s1 & i & E1 & H1 & C1 & N1 & D1)].
  { left. rewrite Ho. reflexivity. }
  right. rewrite E1. cbn [bind].
  assert (Hi : i <> 0) by (intros ->; apply N1; left; auto).
  assert (Eb : ents s1 i = mkent None 0) by (rewrite (d_ents _ _ C1) by auto; apply HD; auto).
  assert (Een : forall j, ents (set_size (set_sid s1 i None) i 0) j = ents s1 j).
  { intros j. cbn. destruct (j =? i) eqn:Ej; auto. assert (j = i) by lia. subst. rewrite Eb, Z.eqb_refl. reflexivity. }
  eexists _, i. split; [reflexivity|]. split; [|split; [|split; [|split]]]; auto.
  - destruct H1 as [[H Hc] HS]. split; [split|].
    + apply Inv0_set_size; [|auto|].
      * replace (set_sid s1 i None) with (set_ents s1 (ents (set_sid s1 i None))) by reflexivity.
        destruct H. 
        assert (Ee : forall j, ents (set_sid s1 i None) j = ents s1 j).
        { intros j. cbn. destruct (j =? i) eqn:Ej; auto. assert (j = i) by lia. subst. rewrite Eb. reflexivity. }
        constructor; auto.
        -- eapply TInv_ext; [| |exact i_ft]; intros []; auto; cbn [fowned fstart]; intros; unfold reg; cbn [ents set_ents mmax]; rewrite ?Ee; auto.
        -- eapply TInv_ext; [| |exact i_mt]; intros []; auto; cbn [mowned mstart]; intros; unfold mini; cbn [ents set_ents mmax]; rewrite ?Ee; auto.
        -- intros x v Hv. destruct (i_fc x v Hv) as [[o Ho]|Hx]; [left; exists o|right; auto].
           destruct o; auto. cbn [fowned] in *. unfold reg in *. cbn [ents set_ents mmax] in *. rewrite Ee. auto.
        -- intros x v Hv. destruct (i_mc x v Hv) as [[o Ho]|Hx]; [left; exists o|right; auto].
           destruct o; auto. cbn [mowned] in *. unfold mini in *. cbn [ents set_ents mmax] in *. rewrite Ee. auto.
        -- intros E o Ho. specialize (i_rl E o Ho). destruct o; auto. cbn [fowned] in *. unfold reg in *. cbn [ents set_ents mmax] in *. rewrite Ee. auto.
        -- destruct i_hw as (A & A1 & A2 & A3 & A4). exists A. split; [exact A1|]. split; [exact A2|]. split; [exact A3|].
           intros o x Ho Hx. apply (A4 o x Ho). destruct o; auto. cbn [mowned] in *. unfold mini in *. cbn [ents set_ents mmax] in *. rewrite Ee in Hx. auto.
      * left. cbn. rewrite Z.eqb_refl. cbn. rewrite Eb. reflexivity.
    + exact Hc.
    + intros j Hj. specialize (HS j Hj). unfold cap_of, sec, kind in *. rewrite Een. exact HS.
  - destruct C1. constructor; auto. intros j Hj. rewrite Een. auto.
  - destruct D1 as (Q1 & Q2 & Q3 & Q4 & Q5). split; [auto|]. split; [auto|]. split; [auto|]. split; [auto|]. intros j Hj. rewrite Een. auto.
  - rewrite Een, Eb. reflexivity.
Qed.

Lemma stream_remove_ok : forall s ch hw live e, Inv s ch hw -> DInv s live -> In e live ->
  exists s', stream_remove s e = Ok s' /\ Inv s' (zput ch e []) hw /\
    (forall j, j <> 0 -> j <> e -> content s' (zput ch e []) j = content s ch j /\ ents s' j = ents s j) /\
    content s' (zput ch e []) e = [] /\ DInv s' (List.remove Z.eq_dec e live).
Proof.
  intros s ch hw live e HI HD Hin. destruct HD as (D1 & D2 & D3 & D4 & D5).
  pose proof D3 as D3'. apply NoDup_app_iff in D3'. destruct D3' as (N1 & N2 & N3).
  assert (He : e <> 0) by (intros ->; inversion N2; auto).
  unfold stream_remove. fold (kind s e). destruct (drop_ok s ch hw e HI He) as (s1 & E1 & H1 & [C1 K1 T1] & S1 & SD1). rewrite E1. cbn [bind].
  set (s2 := set_size (set_sid s1 e None) e 0) in *. eexists. split; [reflexivity|]. split; [|split; [|split]].
  - destruct H1 as [[H Hc] HS]. split; [split; [apply set_dir_Inv0; auto|exact Hc]|exact HS].
  - intros j Hj Hje. split; [|apply (c_ents _ _ _ C1); auto]. etransitivity; [|eapply Keeps_content; eauto]. reflexivity.
  - exact T1.
  - cbn [dir_free dir_chain ss ents set_dir]. unfold DInv. cbn [dir_free dir_chain ss ents set_dir].
    rewrite (c_ss _ _ _ C1), (c_dir _ _ _ C1), (c_dfree _ _ _ C1).
    split; auto. split; auto. split; [|split].
    + apply NoDup_cons_iff in N2. destruct N2 as [Z1 Z2]. rewrite <- app_assoc. cbn [app]. apply NoDup_app_iff. split; auto. split.
      * constructor; [|constructor].
        -- intros [E|E]; [subst; auto|]. apply in_remove in E. tauto.
        -- intro E. apply in_remove in E. tauto.
        -- clear - Z2. induction Z2; cbn; [constructor|]. destruct (Z.eq_dec e x); auto. constructor; auto. intro K. apply in_remove in K. tauto.
      * intros x Hx [<-|[<-|Hy]].
        -- apply (N3 e Hx). right. auto.
        -- apply (N3 0 Hx). left. auto.
        -- apply in_remove in Hy. apply (N3 x Hx). right. tauto.
    + intros j Hj. apply D4. rewrite <- app_assoc in Hj. apply in_app_or in Hj. apply in_or_app. destruct Hj as [Hj|[Hj|[Hj|Hj]]]; auto; right.
      * subst. right; auto.
      * left; auto.
      * right. apply in_remove in Hj. tauto.
    + intros j Hj. destruct (Z.eq_dec j e) as [->|Nj].
      * destruct (ents s2 e); cbn in *; congruence.
      * assert (j <> 0) by (intros ->; apply Hj; left; auto). rewrite (c_ents _ _ _ C1) by auto. apply D5.
        intros [K|K]; apply Hj; [left|right]; auto. apply in_in_remove; auto.
Qed.
