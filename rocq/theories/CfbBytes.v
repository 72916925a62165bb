(** Where the bytes of a stream live in the file, and what the read and write loops of
    cfb.py:137-308 do to them. *)
From Verif Require Import Base BaseFacts LRUModel CfbModel ChainSpec ChainProofs TableInv DifatInv CfbInv.
From Coq Require Import ZArith List Bool Lia.
Import ListNotations.
Open Scope Z_scope.

Definition nthd (l : list Z) (i : Z) : Z := match znth l i with Some x => x | None => 0 end.

(** file offset of position [p] of the mini-stream container *)
Definition caddr (s : cfb) (p : Z) : Z := (nthd (mini_chain s) (p / ss s) + 1) * ss s + p mod ss s.
(** file offset of byte [i] of a stream with chain [l]; [k]: in mini sectors *)
Definition saddr (s : cfb) (l : list Z) (k : bool) (i : Z) : Z :=
  if k then caddr s (nthd l (i / mss s) * mss s + i mod mss s)
  else (nthd l (i / ss s) + 1) * ss s + i mod ss s.

Definition sec (s : cfb) (k : bool) : Z := if k then mss s else ss s.
Definition sbyte (s : cfb) (ch : Z -> list Z) (e i : Z) : Z := fbyte (file s) (saddr s (ch e) (kind s e) i).
Definition content (s : cfb) (ch : Z -> list Z) (e : Z) : list Z := map (sbyte s ch e) (zseq 0 (e_size (ents s e))).

(** ** Arithmetic of positions *)
Lemma div_split : forall n idx off j, 0 < n -> 0 <= off -> 0 <= j -> off + j < n ->
  (idx * n + off + j) / n = idx /\ (idx * n + off + j) mod n = off + j.
Proof.
  intros n idx off j Hn Ho Hj H. replace (idx * n + off + j) with (off + j + idx * n) by lia.
  rewrite Z.div_add, Z.mod_add by lia. rewrite Z.div_small, Z.mod_small by lia. lia.
Qed.

Lemma mini_div : forall m q x r, 0 < m -> 0 < q -> 0 <= r < m ->
  (x * m + r) / (m * q) = x / q /\ (x * m + r) mod (m * q) = (x mod q) * m + r.
Proof.
  intros m q x r Hm Hq Hr.
  pose proof (Z.div_mod x q ltac:(lia)) as Ex. pose proof (Z.mod_pos_bound x q Hq) as Bx.
  assert (E : x * m + r = (m * q) * (x / q) + ((x mod q) * m + r)) by nia.
  assert (B : 0 <= (x mod q) * m + r < m * q) by nia.
  split.
  - symmetry. apply Z.div_unique with ((x mod q) * m + r); lia.
  - symmetry. apply Z.mod_unique with (x / q); lia.
Qed.

Lemma ss_mss : forall s ch fl ml hw, Inv0 s ch fl ml hw -> exists q, 1 <= q /\ ss s = mss s * q /\ q = ss s / mss s.
Proof.
  intros s ch fl ml hw H. pose proof (per_sector _ _ _ _ _ H) as [P1 P2]. destruct H as [A1 A2 A3 _ _ _ _ _ _ _ _ _ _].
  exists (ss s / mss s). split; auto. split; auto. pose proof (Z.div_mod (ss s) (mss s) ltac:(lia)). lia.
Qed.

Lemma mini_split : forall s ch fl ml hw x off j, Inv0 s ch fl ml hw -> 0 <= off -> 0 <= j -> off + j < mss s ->
  (x * mss s + off + j) / ss s = (x * mss s + off) / ss s /\
  (x * mss s + off + j) mod ss s = (x * mss s + off) mod ss s + j /\
  (x * mss s + off) mod ss s + (mss s - off) <= ss s /\ (x * mss s + off) / ss s = x / (ss s / mss s).
Proof.
  intros s ch fl ml hw x off j H Ho Hj Hlt. destruct (ss_mss _ _ _ _ _ H) as (q & Hq & E & Eq).
  pose proof (i_mss _ _ _ _ _ H) as Hm. rewrite <- Eq.
  replace (x * mss s + off + j) with (x * mss s + (off + j)) by lia. rewrite E.
  destruct (mini_div (mss s) q x (off + j)) as [D1 M1]; [lia|lia|lia|].
  destruct (mini_div (mss s) q x off) as [D2 M2]; [lia|lia|lia|].
  rewrite D1, M1, D2, M2. split; [auto|]. split; [lia|]. split; [|auto].
  pose proof (Z.mod_pos_bound x q ltac:(lia)). nia.
Qed.

(** ** Lists of bytes *)
Lemma slice_map_zseq : forall A (g : Z -> A) n a k, 0 <= a -> 0 <= k -> a + k <= n ->
  slice a (a + k) (map g (zseq 0 n)) = map g (zseq a k).
Proof.
  intros A g n a k Ha Hk Hn. apply znth_ext.
  - rewrite zlen_slice by (rewrite ?zlen_map, ?zlen_zseq; lia). rewrite zlen_map, zlen_zseq; lia.
  - intros i Hi. rewrite zlen_slice in Hi by (rewrite ?zlen_map, ?zlen_zseq; lia).
    rewrite znth_slice by lia. replace (i <? a + k - a) with true by lia.
    rewrite !znth_map, !znth_zseq by lia. cbn. f_equal.
Qed.

Lemma map_zseq_shift : forall A (g h : Z -> A) a b n, 0 <= n -> (forall j, 0 <= j < n -> g (a + j) = h (b + j)) ->
  map g (zseq a n) = map h (zseq b n).
Proof.
  intros A g h a b n Hn H. apply znth_ext.
  - rewrite !zlen_map, !zlen_zseq; lia.
  - intros i Hi. rewrite zlen_map, zlen_zseq in Hi by lia. rewrite !znth_map, !znth_zseq by lia. cbn. f_equal. auto.
Qed.

Lemma zlen_sector_bytes : forall f n k, 0 <= n -> zlen (sector_bytes f n k) = n.
Proof. intros. unfold sector_bytes. rewrite zlen_map, zlen_zseq; lia. Qed.

(** ** The sector cache *)
Lemma al_remove_In : forall (l : list (Z * list Z)) k x, In x (al_remove Z (list Z) Z.eqb l k) -> In x l.
Proof. intros l k x H. unfold al_remove in H. apply filter_In in H. tauto. Qed.

Lemma al_remove_notkey : forall (l : list (Z * list Z)) k d, ~ In (k, d) (al_remove Z (list Z) Z.eqb l k).
Proof.
  intros l k d H. unfold al_remove in H. apply filter_In in H. destruct H as [_ H]. cbn in H. rewrite Z.eqb_refl in H. discriminate.
Qed.

Lemma al_get_In' : forall (l : list (Z * list Z)) k d, al_get Z (list Z) Z.eqb l k = Some d -> In (k, d) l.
Proof.
  induction l as [|[k' v] l IH]; intros k d H; cbn in H; [discriminate|]. destruct (k =? k') eqn:E.
  - left. inversion H. f_equal. lia.
  - right. auto.
Qed.

Lemma firstn_In' : forall A n (l : list A) x, In x (firstn n l) -> In x l.
Proof. induction n; intros [|a l] x H; cbn in *; auto; try contradiction. destruct H; auto. Qed.

(** fread padded with zeros is the sector as read through [fbyte] *)
Lemma padded_read : forall f pos n, 0 <= pos -> 0 <= n ->
  fread f pos n ++ zeros (n - zlen (fread f pos n)) = map (fun k => fbyte f (pos + k)) (zseq 0 n).
Proof.
  intros f pos n Hp Hn. unfold fread.
  assert (Hl : zlen (slice pos (pos + n) f) = Z.max 0 (Z.min (pos + n) (zlen f) - pos)).
  { unfold slice. rewrite zlen_ztake, zlen_zdrop by lia. lia. }
  assert (Hb : 0 <= zlen (slice pos (pos + n) f) <= n) by lia.
  apply znth_ext.
  - rewrite zlen_app, zlen_zeros, zlen_map, zlen_zseq; lia.
  - intros i Hi. rewrite zlen_app, zlen_zeros in Hi by lia.
    rewrite znth_map, znth_zseq by lia. cbn [option_map]. unfold fbyte.
    destruct (Z.lt_ge_cases i (zlen (slice pos (pos + n) f))).
    + rewrite znth_app1 by auto. rewrite znth_slice by lia. replace (i <? pos + n - pos) with true by lia.
      destruct (znth_in_range _ f (pos + i)) as [b Hbb]; [lia|]. rewrite Hbb. rewrite Z.add_0_l, Hbb. reflexivity.
    + rewrite znth_app2 by auto. rewrite znth_zeros.
      match goal with |- (if ?c then _ else _) = _ => replace c with true by lia end.
      rewrite Z.add_0_l. destruct (znth f (pos + i)) eqn:E; auto. apply znth_Some in E. lia.
Qed.

(** only the cache differs *)
Definition CacheOnly (s s' : cfb) : Prop := s' = set_cache s (cache s').

Lemma CacheOnly_refl : forall s, CacheOnly s s.
Proof. intros []; reflexivity. Qed.
Lemma CacheOnly_trans : forall a b c, CacheOnly a b -> CacheOnly b c -> CacheOnly a c.
Proof. unfold CacheOnly. intros a b c -> ->. reflexivity. Qed.

Lemma CacheOnly_Inv0 : forall s s' ch fl ml hw, CacheOnly s s' -> cache_ok s' -> Inv0 s ch fl ml hw -> Inv0 s' ch fl ml hw.
Proof.
  intros s s' ch fl ml hw E HC []. constructor; auto; rewrite E; auto.
Qed.

(** read_sector_data returns what the file holds, and keeps the cache right *)
Lemma read_sector_ok : forall s sid, cache_ok s -> 0 <= ss s -> 0 <= sid ->
  exists s', read_sector_data s sid = (s', sector_bytes (file s) (ss s) sid) /\ CacheOnly s s' /\ cache_ok s'.
Proof.
  intros s sid HC Hss Hsid. unfold read_sector_data. destruct (cache_get (cache s) sid) as [d|] eqn:E.
  - pose proof (al_get_In' _ _ _ E) as Hin. rewrite (HC _ _ Hin). eexists. split; [reflexivity|]. split; [reflexivity|].
    intros k d' Hd. cbn [cache set_cache] in Hd. cbn [file ss set_cache].
    unfold spec_step in Hd. unfold cache_get in E. rewrite E in Hd. cbn [fst] in Hd. destruct Hd as [Hd|Hd].
    + inversion Hd; subst. auto.
    + apply al_remove_In in Hd. auto.
  - rewrite padded_read by nia. fold (sector_bytes (file s) (ss s) sid).
    eexists. split; [reflexivity|]. split; [reflexivity|].
    intros k d' Hd. cbn [cache set_cache] in Hd. cbn [file ss set_cache].
    unfold spec_step in Hd. unfold cache_get in E. rewrite E in Hd. cbn [fst] in Hd. destruct Hd as [Hd|Hd].
    + inversion Hd; subst. auto.
    + apply firstn_In' in Hd. auto.
Qed.

(** ** The read loops *)
Lemma nthd_znth : forall l i x, znth l i = Some x -> nthd l i = x.
Proof. intros l i x H. unfold nthd. rewrite H. auto. Qed.

Lemma read_reg_spec : forall fuel s l idx off left acc, cache_ok s -> 16 <= ss s -> (forall x, In x l -> 0 <= x) ->
  0 <= idx -> 0 <= off < ss s -> left <= Z.of_nat fuel -> idx * ss s + off + left <= zlen l * ss s ->
  exists s', read_reg fuel s l idx off left acc =
      Ok (s', acc ++ map (fun i => fbyte (file s) (saddr s l false i)) (zseq (idx * ss s + off) left)) /\
    CacheOnly s s' /\ cache_ok s'.
Proof.
  induction fuel as [|n IH]; intros s l idx off left acc HC Hss Hl Hidx Hoff Hf Hlen; cbn [read_reg].
  - replace (left <=? 0) with true by lia. exists s. rewrite zseq_nil by lia. cbn. rewrite app_nil_r.
    split; auto. split; auto. apply CacheOnly_refl.
  - destruct (left <=? 0) eqn:E0.
    { exists s. rewrite zseq_nil by lia. cbn. rewrite app_nil_r. split; auto. split; auto. apply CacheOnly_refl. }
    assert (Hi : idx < zlen l) by nia. destruct (znth_in_range _ l idx) as [sid Hsid]; [lia|]. rewrite Hsid.
    assert (Hs0 : 0 <= sid) by (apply Hl; eapply znth_In; eauto).
    destruct (read_sector_ok s sid HC ltac:(lia) Hs0) as (s1 & E1 & C1 & HC1). rewrite E1.
    set (k := Z.min left (ss s - off)). assert (Hk : 0 < k <= ss s - off) by lia.
    replace (0 <? k) with true by lia.
    assert (Hsl : slice off (off + k) (sector_bytes (file s) (ss s) sid) =
                  map (fun i => fbyte (file s) (saddr s l false i)) (zseq (idx * ss s + off) k)).
    { unfold sector_bytes. rewrite slice_map_zseq by lia. apply map_zseq_shift; [lia|]. intros j Hj. f_equal.
      unfold saddr. destruct (div_split (ss s) idx off j) as [-> ->]; try lia. rewrite (nthd_znth _ _ _ Hsid). lia. }
    rewrite Hsl. rewrite zlen_map, zlen_zseq by lia. rewrite Z.eqb_refl.
    assert (Ef : file s1 = file s /\ ss s1 = ss s) by (rewrite C1; auto). destruct Ef as [Ef Es].
    destruct (Z.eq_dec left k) as [Ek|Nk].
    + (* last chunk: whatever follows reads nothing *)
      destruct (IH s1 l (idx + 1) 0 (left - k) (acc ++ map (fun i => fbyte (file s) (saddr s l false i)) (zseq (idx * ss s + off) k)))
        as (s2 & E2 & C2 & HC2); try (rewrite ?Es; lia); auto.
      { rewrite Es. nia. }
      exists s2. rewrite E2. split; [|split; auto; eapply CacheOnly_trans; eauto].
      f_equal. f_equal. rewrite (zseq_nil _ (left - k)) by lia. cbn [map]. rewrite app_nil_r. rewrite <- Ek. reflexivity.
    + assert (Hkk : k = ss s - off) by lia.
      destruct (IH s1 l (idx + 1) 0 (left - k) (acc ++ map (fun i => fbyte (file s) (saddr s l false i)) (zseq (idx * ss s + off) k)))
        as (s2 & E2 & C2 & HC2); try (rewrite ?Es; lia); auto.
      exists s2. rewrite E2. split; [|split; auto; eapply CacheOnly_trans; eauto].
      f_equal. f_equal. rewrite <- app_assoc. f_equal.
      replace left with (k + (left - k)) at 2 by lia. rewrite zseq_app by lia. rewrite map_app. f_equal.
      rewrite Es, Ef. replace ((idx + 1) * ss s + 0) with (idx * ss s + off + k) by lia.
      apply map_ext. intros i. f_equal. unfold saddr. rewrite Es. reflexivity.
Qed.

(** every mini sector of the chain lies inside the container *)
Definition covered (s : cfb) (l : list Z) : Prop := forall x, In x l -> 0 <= x < cover s.

Lemma read_mini_spec : forall fuel s ch fl ml hw l idx off left prev acc, Inv0 s ch fl ml hw -> covered s l ->
  (forall x, In x (mini_chain s) -> 0 <= x) ->
  (fst prev <> -1 -> snd prev = sector_bytes (file s) (ss s) (fst prev)) ->
  0 <= idx -> 0 <= off < mss s -> left <= Z.of_nat fuel -> idx * mss s + off + left <= zlen l * mss s ->
  exists s', read_mini fuel s l idx off left prev acc =
      Ok (s', acc ++ map (fun i => fbyte (file s) (saddr s l true i)) (zseq (idx * mss s + off) left)) /\
    CacheOnly s s' /\ cache_ok s'.
Proof.
  induction fuel as [|n IH]; intros s ch fl ml hw l idx off left prev acc H Hcov Hmc Hprev Hidx Hoff Hf Hlen; cbn [read_mini];
  pose proof (i_cache _ _ _ _ _ H) as HC.
  - replace (left <=? 0) with true by lia. exists s. rewrite zseq_nil by lia. cbn. rewrite app_nil_r.
    split; auto. split; auto. apply CacheOnly_refl.
  - destruct (left <=? 0) eqn:E0.
    { exists s. rewrite zseq_nil by lia. cbn. rewrite app_nil_r. split; auto. split; auto. apply CacheOnly_refl. }
    pose proof (i_mss _ _ _ _ _ H) as Hm. pose proof (i_ss _ _ _ _ _ H) as Hss.
    assert (Hi : idx < zlen l) by nia. destruct (znth_in_range _ l idx) as [m Hm1]; [lia|]. rewrite Hm1.
    assert (Hmr : 0 <= m < cover s) by (apply Hcov; eapply znth_In; eauto).
    destruct (mini_split s ch fl ml hw m off 0 H ltac:(lia) ltac:(lia) ltac:(lia)) as (_ & _ & Hfit & Hci).
    set (mpos := m * mss s + off) in *.
    assert (Hcr : 0 <= mpos / ss s < zlen (mini_chain s)).
    { rewrite Hci. destruct (ss_mss _ _ _ _ _ H) as (q & Hq & _ & Eq). unfold cover in Hmr. rewrite <- Eq in *.
      split; [apply Z.div_pos; lia|]. apply Z.div_lt_upper_bound; lia. }
    destruct (znth_in_range _ (mini_chain s) (mpos / ss s) Hcr) as [sid Hsid]. rewrite Hsid.
    assert (Hs0 : 0 <= sid) by (apply Hmc; eapply znth_In; eauto).
    assert (Hrd : exists s1, (if sid =? fst prev then (s, snd prev) else read_sector_data s sid) = (s1, sector_bytes (file s) (ss s) sid) /\ CacheOnly s s1 /\ cache_ok s1).
    { destruct (sid =? fst prev) eqn:Ep.
      - exists s. assert (sid = fst prev) by lia. rewrite Hprev by lia. subst sid. split; auto. split; auto. apply CacheOnly_refl.
      - apply read_sector_ok; auto. lia. }
    destruct Hrd as (s1 & E1 & C1 & HC1). rewrite E1.
    set (k := Z.min left (mss s - off)). assert (Hk : 0 < k <= mss s - off) by lia.
    replace (0 <? k) with true by lia.
    assert (Hmm : 0 <= mpos mod ss s) by (apply Z.mod_pos_bound; lia).
    assert (Hsl : slice (mpos mod ss s) (mpos mod ss s + k) (sector_bytes (file s) (ss s) sid) =
                  map (fun i => fbyte (file s) (saddr s l true i)) (zseq (idx * mss s + off) k)).
    { unfold sector_bytes. rewrite slice_map_zseq by lia. apply map_zseq_shift; [lia|]. intros j Hj. f_equal.
      unfold saddr. destruct (div_split (mss s) idx off j) as [-> ->]; try lia. rewrite (nthd_znth _ _ _ Hm1).
      unfold caddr. destruct (mini_split s ch fl ml hw m off j H ltac:(lia) ltac:(lia) ltac:(lia)) as (D1 & D2 & _ & _). fold mpos in D1, D2.
      replace (m * mss s + (off + j)) with (mpos + j) by (unfold mpos; lia). rewrite D1, D2, (nthd_znth _ _ _ Hsid). lia. }
    rewrite Hsl. rewrite zlen_map, zlen_zseq by lia. rewrite Z.eqb_refl.
    assert (Ef : file s1 = file s /\ ss s1 = ss s /\ mss s1 = mss s /\ mini_chain s1 = mini_chain s) by (rewrite C1; auto). destruct Ef as (Ef & Es & Ems & Emc).
    assert (Eta : forall i, saddr s1 l true i = saddr s l true i) by (intros; unfold saddr, caddr; rewrite Es, Ems, Emc; auto).
    assert (H1 : Inv0 s1 ch fl ml hw) by (eapply CacheOnly_Inv0; eauto).
    assert (Hcov1 : covered s1 l) by (unfold covered, cover in *; rewrite Es, Ems, Emc; auto).
    destruct (IH s1 ch fl ml hw l (idx + 1) 0 (left - k) (sid, sector_bytes (file s) (ss s) sid)
       (acc ++ map (fun i => fbyte (file s) (saddr s l true i)) (zseq (idx * mss s + off) k)) H1 Hcov1)
        as (s2 & E2 & C2 & HC2); try (rewrite ?Ems; lia); auto.
    { rewrite Emc. auto. }
    { intros _. cbn. rewrite Ef, Es. auto. }
    { rewrite Ems. destruct (Z.eq_dec left k); nia. }
    exists s2. rewrite E2. split; [|split; auto; eapply CacheOnly_trans; eauto].
    f_equal. f_equal. destruct (Z.eq_dec left k) as [Ek|Nk].
    + rewrite (zseq_nil _ (left - k)) by lia. cbn [map]. rewrite app_nil_r. rewrite <- Ek. reflexivity.
    + assert (Hkk : k = mss s - off) by lia. rewrite <- app_assoc. f_equal.
      replace left with (k + (left - k)) at 2 by lia. rewrite zseq_app by lia. rewrite map_app. f_equal.
      rewrite Ems, Ef. replace ((idx + 1) * mss s + 0) with (idx * mss s + off + k) by lia.
      apply map_ext. intros i. f_equal. apply Eta.
Qed.

(** ** Writing *)
Lemma zlen_zero_iff : forall A (l : list A), zlen l = 0 <-> l = [].
Proof. intros A [|a l]; split; intros; auto; unfold zlen in *; cbn in *; try lia; discriminate. Qed.

Lemma fbyte_fwrite : forall f pos d a, 0 <= pos -> fbyte (fwrite f pos d) a =
  if (pos <=? a) && (a <? pos + zlen d) then nthd d (a - pos) else fbyte f a.
Proof.
  intros f pos d a Hp. pose proof (zlen_nonneg _ f) as Hf. pose proof (zlen_nonneg _ d) as Hd.
  destruct d as [|b d'].
  - change (zlen (@nil Z)) with 0. cbn [fwrite]. replace ((pos <=? a) && (a <? pos + 0)) with false by lia. auto.
  - set (d := b :: d') in *. change (fwrite f pos d) with (ztake pos (f ++ zeros (pos - zlen f)) ++ d ++ zdrop (pos + zlen d) f).
    assert (Hl : zlen (ztake pos (f ++ zeros (pos - zlen f))) = pos).
    { rewrite zlen_ztake, zlen_app by lia. destruct (Z.lt_ge_cases pos (zlen f)).
      - unfold zeros. rewrite zlen_repeat. lia.
      - rewrite zlen_zeros by lia. lia. }
    unfold fbyte. destruct (Z.lt_ge_cases a pos).
    + replace ((pos <=? a) && (a <? pos + zlen d)) with false by lia.
      rewrite znth_app1 by lia. rewrite znth_ztake. replace (a <? pos) with true by lia.
      destruct (Z.lt_ge_cases a (zlen f)).
      * rewrite znth_app1 by lia. auto.
      * rewrite znth_app2 by lia. rewrite znth_zeros. replace ((0 <=? a - zlen f) && (a - zlen f <? pos - zlen f)) with true by lia.
        destruct (znth f a) eqn:E; auto. apply znth_Some in E. lia.
    + rewrite znth_app2 by lia. rewrite Hl. destruct (Z.lt_ge_cases a (pos + zlen d)).
      * replace ((pos <=? a) && (a <? pos + zlen d)) with true by lia. rewrite znth_app1 by lia. reflexivity.
      * replace ((pos <=? a) && (a <? pos + zlen d)) with false by lia. rewrite znth_app2 by lia.
        rewrite znth_zdrop by lia. replace (pos + zlen d + (a - pos - zlen d)) with a by lia. auto.
Qed.

Definition Wrote (f f' : list Z) (A : Z -> Z) (p : Z) (d : list Z) : Prop :=
  (forall j, 0 <= j < zlen d -> fbyte f' (A (p + j)) = nthd d j) /\
  (forall a, (forall j, 0 <= j < zlen d -> A (p + j) <> a) -> fbyte f' a = fbyte f a).

Lemma Wrote_nil : forall f A p, Wrote f f A p [].
Proof. intros. split; auto. intros j Hj. change (zlen (@nil Z)) with 0 in Hj. lia. Qed.

Lemma Wrote_app : forall f f1 f2 A p d1 d2, Wrote f f1 A p d1 -> Wrote f1 f2 A (p + zlen d1) d2 ->
  (forall i j, p <= i < p + zlen d1 + zlen d2 -> p <= j < p + zlen d1 + zlen d2 -> A i = A j -> i = j) ->
  Wrote f f2 A p (d1 ++ d2).
Proof.
  intros f f1 f2 A p d1 d2 [W1 K1] [W2 K2] Inj. pose proof (zlen_nonneg _ d1). pose proof (zlen_nonneg _ d2). split.
  - intros j Hj. rewrite zlen_app in Hj. unfold nthd. destruct (Z.lt_ge_cases j (zlen d1)).
    + rewrite znth_app1 by lia. fold (nthd d1 j). rewrite K2; [apply W1; lia|].
      intros i Hi E. apply Inj in E; lia.
    + rewrite znth_app2 by lia. fold (nthd d2 (j - zlen d1)). rewrite <- W2 by lia. f_equal. f_equal. lia.
  - intros a Ha. rewrite K2, K1; auto.
    + intros j Hj. apply Ha. rewrite zlen_app. lia.
    + intros j Hj. replace (p + zlen d1 + j) with (p + (zlen d1 + j)) by lia. apply Ha. rewrite zlen_app. lia.
Qed.

Definition FileOnly (s s' : cfb) : Prop := s' = set_file (set_cache s (cache s')) (file s').
Lemma FileOnly_refl : forall s, FileOnly s s.
Proof. intros []; reflexivity. Qed.
Lemma FileOnly_trans : forall a b c, FileOnly a b -> FileOnly b c -> FileOnly a c.
Proof. unfold FileOnly. intros a b c -> ->. reflexivity. Qed.
Lemma CacheOnly_FileOnly : forall a b, CacheOnly a b -> FileOnly a b.
Proof. unfold FileOnly, CacheOnly. intros a b ->. reflexivity. Qed.

Lemma FileOnly_Inv0 : forall s s' ch fl ml hw, FileOnly s s' -> cache_ok s' -> Inv0 s ch fl ml hw -> Inv0 s' ch fl ml hw.
Proof. intros s s' ch fl ml hw E HC []. constructor; auto; rewrite E; auto. Qed.

Lemma write_at_ok : forall s sid off d, cache_ok s -> 0 <= sid -> 0 <= off -> off + zlen d <= ss s ->
  FileOnly s (write_at s sid off d) /\ cache_ok (write_at s sid off d) /\
  forall a, fbyte (file (write_at s sid off d)) a =
    if ((sid + 1) * ss s + off <=? a) && (a <? (sid + 1) * ss s + off + zlen d) then nthd d (a - ((sid + 1) * ss s + off)) else fbyte (file s) a.
Proof.
  intros s sid off d HC Hs Ho Hl. pose proof (zlen_nonneg _ d).
  assert (HF : forall a, fbyte (file (write_at s sid off d)) a =
    if ((sid + 1) * ss s + off <=? a) && (a <? (sid + 1) * ss s + off + zlen d) then nthd d (a - ((sid + 1) * ss s + off)) else fbyte (file s) a).
  { intros a. unfold write_at. cbn [file set_file]. apply fbyte_fwrite. nia. }
  split; [reflexivity|]. split; auto.
  intros k x Hx. assert (Hk : k <> sid /\ In (k, x) (cache s)).
  { unfold write_at in Hx. cbn in Hx. unfold cache_del in Hx. split.
    - intros ->. eapply al_remove_notkey; eauto.
    - eapply al_remove_In; eauto. }
  destruct Hk as [Hk Hin]. rewrite (HC _ _ Hin). unfold sector_bytes. change (ss (write_at s sid off d)) with (ss s).
  apply map_ext_in. intros j Hj. apply In_zseq in Hj. rewrite HF.
  replace (((sid + 1) * ss s + off <=? (k + 1) * ss s + j) && ((k + 1) * ss s + j <? (sid + 1) * ss s + off + zlen d)) with false; auto.
  symmetry. apply andb_false_iff. destruct (Z.lt_ge_cases k sid); [left|right]; nia.
Qed.

Lemma nthd_ztake : forall k (d : list Z) j, j < k -> nthd (ztake k d) j = nthd d j.
Proof. intros. unfold nthd. rewrite znth_ztake. replace (j <? k) with true by lia. auto. Qed.

Lemma write_reg_spec : forall fuel s l idx off data, cache_ok s -> 16 <= ss s -> (forall x, In x l -> 0 <= x) ->
  (forall i j, 0 <= i < zlen l * ss s -> 0 <= j < zlen l * ss s -> saddr s l false i = saddr s l false j -> i = j) ->
  0 <= idx -> 0 <= off < ss s -> zlen data <= Z.of_nat fuel -> idx * ss s + off + zlen data <= zlen l * ss s ->
  exists s', write_reg fuel s l idx off data = Ok s' /\ FileOnly s s' /\ cache_ok s' /\
    Wrote (file s) (file s') (saddr s l false) (idx * ss s + off) data.
Proof.
  induction fuel as [|n IH]; intros s l idx off data HC Hss Hl Inj Hidx Hoff Hf Hlen; cbn [write_reg]; pose proof (zlen_nonneg _ data).
  - replace (zlen data <=? 0) with true by lia. exists s. assert (data = []) as -> by (apply zlen_zero_iff; lia).
    split; auto. split; [apply FileOnly_refl|]. split; auto. apply Wrote_nil.
  - destruct (zlen data <=? 0) eqn:E0.
    { exists s. assert (data = []) as -> by (apply zlen_zero_iff; lia). split; auto. split; [apply FileOnly_refl|]. split; auto. apply Wrote_nil. }
    assert (Hi : idx < zlen l) by nia. destruct (znth_in_range _ l idx) as [sid Hsid]; [lia|]. rewrite Hsid.
    assert (Hs0 : 0 <= sid) by (apply Hl; eapply znth_In; eauto).
    set (k := Z.min (zlen data) (ss s - off)). assert (Hk : 0 < k <= ss s - off) by lia. replace (0 <? k) with true by lia.
    assert (Hkl : zlen (ztake k data) = k) by (rewrite zlen_ztake; lia).
    destruct (write_at_ok s sid off (ztake k data) HC Hs0) as (F1 & HC1 & HB); try lia.
    set (s1 := write_at s sid off (ztake k data)) in *.
    assert (Es : ss s1 = ss s) by (rewrite F1; reflexivity).
    assert (Eta : forall i, saddr s1 l false i = saddr s l false i) by (intros; unfold saddr; rewrite Es; auto).
    destruct (IH s1 l (idx + 1) 0 (zdrop k data)) as (s2 & E2 & F2 & HC2 & W2); try (rewrite ?Es; lia); auto.
    { rewrite zlen_zdrop; lia. }
    { rewrite Es, zlen_zdrop by lia. destruct (Z.eq_dec k (zlen data)); nia. }
    exists s2. split; [exact E2|]. split; [eapply FileOnly_trans; eauto|]. split; auto.
    assert (HA : forall j, 0 <= j < k -> saddr s l false (idx * ss s + off + j) = (sid + 1) * ss s + off + j).
    { intros j Hj. unfold saddr. destruct (div_split (ss s) idx off j) as [-> ->]; try lia. rewrite (nthd_znth _ _ _ Hsid). lia. }
    assert (W1 : Wrote (file s) (file s1) (saddr s l false) (idx * ss s + off) (ztake k data)).
    { split.
      - intros j Hj. rewrite Hkl in Hj. rewrite HA by lia. rewrite HB, Hkl.
        match goal with |- (if ?c then _ else _) = _ => replace c with true by lia end. f_equal. lia.
      - intros a Ha. rewrite HB, Hkl. destruct (((sid + 1) * ss s + off <=? a) && (a <? (sid + 1) * ss s + off + k)) eqn:Ea; auto.
        exfalso. apply (Ha (a - ((sid + 1) * ss s + off))); [rewrite Hkl; lia|]. rewrite HA by lia. lia. }
    rewrite <- (ztake_zdrop _ k data). destruct (Z.eq_dec k (zlen data)) as [Ek|Nk].
    + assert (zdrop k data = []) as Ez by (apply zlen_zero_iff; rewrite zlen_zdrop; lia). rewrite Ez in *. rewrite app_nil_r.
      split.
      * intros j Hj. destruct W2 as [_ K2]. rewrite K2 by (intros i Hi2; change (zlen (@nil Z)) with 0 in Hi2; lia). apply W1. auto.
      * intros a Ha. destruct W2 as [_ K2]. rewrite K2 by (intros i Hi2; change (zlen (@nil Z)) with 0 in Hi2; lia). apply W1. auto.
    + apply Wrote_app with (file s1); auto.
      * rewrite Hkl. replace (idx * ss s + off + k) with ((idx + 1) * ss s1 + 0) by (rewrite Es; lia).
        destruct W2 as [W2 K2]. split.
        -- intros j Hj. rewrite <- Eta. apply W2. auto.
        -- intros a Ha. apply K2. intros j Hj. rewrite Eta. apply Ha. auto.
      * rewrite Hkl, zlen_zdrop by lia. intros i j Hi2 Hj2. pose proof (Z.mul_nonneg_nonneg idx (ss s) Hidx ltac:(lia)). apply Inj; lia.
Qed.

Lemma write_mini_spec : forall fuel s ch fl ml hw l idx off data, Inv0 s ch fl ml hw -> covered s l ->
  (forall x, In x (mini_chain s) -> 0 <= x) ->
  (forall i j, 0 <= i < zlen l * mss s -> 0 <= j < zlen l * mss s -> saddr s l true i = saddr s l true j -> i = j) ->
  0 <= idx -> 0 <= off < mss s -> zlen data <= Z.of_nat fuel -> idx * mss s + off + zlen data <= zlen l * mss s ->
  exists s', write_mini fuel s l idx off data = Ok s' /\ FileOnly s s' /\ cache_ok s' /\
    Wrote (file s) (file s') (saddr s l true) (idx * mss s + off) data.
Proof.
  induction fuel as [|n IH]; intros s ch fl ml hw l idx off data H Hcov Hmc Inj Hidx Hoff Hf Hlen; cbn [write_mini];
  pose proof (zlen_nonneg _ data); pose proof (i_cache _ _ _ _ _ H) as HC.
  - replace (zlen data <=? 0) with true by lia. exists s. assert (data = []) as -> by (apply zlen_zero_iff; lia).
    split; auto. split; [apply FileOnly_refl|]. split; auto. apply Wrote_nil.
  - destruct (zlen data <=? 0) eqn:E0.
    { exists s. assert (data = []) as -> by (apply zlen_zero_iff; lia). split; auto. split; [apply FileOnly_refl|]. split; auto. apply Wrote_nil. }
    pose proof (i_mss _ _ _ _ _ H) as Hm. pose proof (i_ss _ _ _ _ _ H) as Hss.
    assert (Hi : idx < zlen l) by nia. destruct (znth_in_range _ l idx) as [m Hm1]; [lia|]. rewrite Hm1.
    assert (Hmr : 0 <= m < cover s) by (apply Hcov; eapply znth_In; eauto).
    destruct (mini_split s ch fl ml hw m off 0 H ltac:(lia) ltac:(lia) ltac:(lia)) as (_ & _ & Hfit & Hci).
    set (mpos := m * mss s + off) in *.
    assert (Hcr : 0 <= mpos / ss s < zlen (mini_chain s)).
    { rewrite Hci. destruct (ss_mss _ _ _ _ _ H) as (q & Hq & _ & Eq). unfold cover in Hmr. rewrite <- Eq in *.
      split; [apply Z.div_pos; lia|]. apply Z.div_lt_upper_bound; lia. }
    destruct (znth_in_range _ (mini_chain s) (mpos / ss s) Hcr) as [sid Hsid]. rewrite Hsid.
    assert (Hs0 : 0 <= sid) by (apply Hmc; eapply znth_In; eauto).
    set (k := Z.min (zlen data) (mss s - off)). assert (Hk : 0 < k <= mss s - off) by lia. replace (0 <? k) with true by lia.
    assert (Hmm : 0 <= mpos mod ss s) by (apply Z.mod_pos_bound; lia).
    assert (Hkl : zlen (ztake k data) = k) by (rewrite zlen_ztake; lia).
    destruct (write_at_ok s sid (mpos mod ss s) (ztake k data) HC Hs0) as (F1 & HC1 & HB); try lia.
    set (s1 := write_at s sid (mpos mod ss s) (ztake k data)) in *.
    assert (Ef : ss s1 = ss s /\ mss s1 = mss s /\ mini_chain s1 = mini_chain s) by (rewrite F1; auto). destruct Ef as (Es & Ems & Emc).
    assert (Eta : forall i, saddr s1 l true i = saddr s l true i) by (intros; unfold saddr, caddr; rewrite Es, Ems, Emc; auto).
    assert (H1 : Inv0 s1 ch fl ml hw) by (eapply FileOnly_Inv0; eauto).
    assert (Hcov1 : covered s1 l) by (unfold covered, cover in *; rewrite Es, Ems, Emc; auto).
    destruct (IH s1 ch fl ml hw l (idx + 1) 0 (zdrop k data) H1 Hcov1) as (s2 & E2 & F2 & HC2 & W2); try (rewrite ?Ems; lia); auto.
    { rewrite zlen_zdrop; lia. }
    { rewrite Ems, zlen_zdrop by lia. destruct (Z.eq_dec k (zlen data)); nia. }
    exists s2. split; [exact E2|]. split; [eapply FileOnly_trans; eauto|]. split; auto.
    assert (HA : forall j, 0 <= j < k -> saddr s l true (idx * mss s + off + j) = (sid + 1) * ss s + mpos mod ss s + j).
    { intros j Hj. unfold saddr. destruct (div_split (mss s) idx off j) as [-> ->]; try lia. rewrite (nthd_znth _ _ _ Hm1).
      unfold caddr. destruct (mini_split s ch fl ml hw m off j H ltac:(lia) ltac:(lia) ltac:(lia)) as (D1 & D2 & _ & _). fold mpos in D1, D2.
      replace (m * mss s + (off + j)) with (mpos + j) by (unfold mpos; lia). rewrite D1, D2, (nthd_znth _ _ _ Hsid). lia. }
    assert (W1 : Wrote (file s) (file s1) (saddr s l true) (idx * mss s + off) (ztake k data)).
    { split.
      - intros j Hj. rewrite Hkl in Hj. rewrite HA by lia. rewrite HB, Hkl.
        match goal with |- (if ?c then _ else _) = _ => replace c with true by lia end. f_equal. lia.
      - intros a Ha. rewrite HB, Hkl. destruct (((sid + 1) * ss s + mpos mod ss s <=? a) && (a <? (sid + 1) * ss s + mpos mod ss s + k)) eqn:Ea; auto.
        exfalso. apply (Ha (a - ((sid + 1) * ss s + mpos mod ss s))); [rewrite Hkl; lia|]. rewrite HA by lia. lia. }
    rewrite <- (ztake_zdrop _ k data). destruct (Z.eq_dec k (zlen data)) as [Ek|Nk].
    + assert (zdrop k data = []) as Ez by (apply zlen_zero_iff; rewrite zlen_zdrop; lia). rewrite Ez in *. rewrite app_nil_r.
      split.
      * intros j Hj. destruct W2 as [_ K2]. rewrite K2 by (intros i Hi2; change (zlen (@nil Z)) with 0 in Hi2; lia). apply W1. auto.
      * intros a Ha. destruct W2 as [_ K2]. rewrite K2 by (intros i Hi2; change (zlen (@nil Z)) with 0 in Hi2; lia). apply W1. auto.
    + apply Wrote_app with (file s1); auto.
      * rewrite Hkl. replace (idx * mss s + off + k) with ((idx + 1) * mss s1 + 0) by (rewrite Ems; lia).
        destruct W2 as [W2 K2]. split.
        -- intros j Hj. rewrite <- Eta. apply W2. auto.
        -- intros a Ha. apply K2. intros j Hj. rewrite Eta. apply Ha. auto.
      * rewrite Hkl, zlen_zdrop by lia. intros i j Hi2 Hj2. pose proof (Z.mul_nonneg_nonneg idx (mss s) Hidx ltac:(lia)). apply Inj; lia.
Qed.
