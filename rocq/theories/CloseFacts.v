(** What close does to the mini stream container, and what reloading the tables gives (cfb.py:1144-1183, 1415-1504). *)
From Verif Require Import Base BaseFacts Codec CodecFacts ObjModel LRUModel CfbModel ChainSpec ChainProofs TableInv DifatInv CfbInv CfbBytes CfbStream CfbExtra CfbSave SaveFacts SaveInv.
From Coq Require Import ZArith List Bool Lia.
Import ListNotations.
Open Scope Z_scope.
Notation length := List.length.

(** one past the last entry in use *)
Definition used_end (tbl : list Z) (n : Z) : Prop :=
  exists a, tbl = a ++ repeat FREESECT (Z.to_nat (zlen tbl - n)) /\ zlen a = n /\ (a = [] \/ last a FREESECT <> FREESECT).

Lemma used_end_exists : forall tbl, tbl <> [] -> exists i n, trailing_free tbl = Ok i /\ used_end tbl n /\
  ((n = 0 /\ zlen tbl - i = 1) \/ (1 <= n /\ zlen tbl - i = n)) /\ 0 <= n <= zlen tbl.
Proof.
  intros tbl H. destruct (trailing_free_spec tbl H) as (i & Ei & [(a & v & Et & Hv & Hi & Hz)|[Et Hz]]).
  - exists i, (zlen a + 1). split; auto. pose proof (zlen_nonneg _ a). split; [|split; [right; lia|]].
    + exists (a ++ [v]). rewrite <- app_assoc. cbn [app]. replace (zlen tbl - (zlen a + 1)) with i by lia. split; auto.
      split; [rewrite zlen_app; reflexivity|]. right. rewrite last_last. auto.
    + rewrite <- Hz. lia.
  - exists i, 0. split; auto. split; [|split; [left; lia|pose proof (zlen_nonneg _ tbl); lia]].
    exists []. cbn [app]. rewrite Z.sub_0_r. unfold zlen at 1. rewrite Nat2Z.id. auto.
Qed.

Lemma used_end_free : forall tbl n x, used_end tbl n -> n <= x < zlen tbl -> znth tbl x = Some FREESECT.
Proof.
  intros tbl n x (a & E & Hn & _) Hx. rewrite E, znth_app2 by lia. rewrite znth_repeat by lia.
  replace ((0 <=? x - zlen a) && (x - zlen a <? Z.of_nat (Z.to_nat (zlen tbl - n)))) with true; auto. lia.
Qed.

Lemma used_end_last : forall tbl n, used_end tbl n -> 1 <= n -> exists v, znth tbl (n - 1) = Some v /\ v <> FREESECT.
Proof.
  intros tbl n (a & E & Hn & Hl) H1. destruct Hl as [->|Hl]; [change (zlen (@nil Z)) with 0 in Hn; lia|].
  destruct a as [|a0 a'] using rev_ind; [change (zlen (@nil Z)) with 0 in Hn; lia|]. clear IHa'. rewrite last_last in Hl.
  exists a0. split; auto. rewrite E, znth_app1 by lia. rewrite zlen_app in Hn. change (zlen [a0]) with 1 in Hn.
  rewrite znth_app2 by lia. replace (n - 1 - zlen a') with 0 by lia. reflexivity.
Qed.

Lemma used_end_freelist : forall tbl n, used_end tbl n -> n <= zlen tbl -> exists A, free_from 0 tbl = A ++ zseq n (zlen tbl - n) /\ forall x, In x A -> x < n.
Proof.
  intros tbl n (a & E & Hn & _) H. exists (free_from 0 a). split.
  - rewrite E at 1. rewrite free_from_app, free_from_repeat, Z.add_0_l, Hn. f_equal. f_equal. lia.
  - intros x Hx. apply free_from_lt in Hx. lia.
Qed.

(** an entry used by a chain is below the end *)
Lemma owned_below : forall tbl own start n o x, TInv tbl own start -> used_end tbl n -> chain_owner o -> In x (own o) -> 0 <= x < n.
Proof.
  intros tbl own start n o x HT HU Ho Hx. pose proof (TInv_range _ _ _ HT _ _ Hx) as Hr. split; [lia|].
  destruct (Z.lt_ge_cases x n); auto. pose proof (used_end_free _ _ x HU ltac:(lia)) as Hf.
  exfalso. pose proof (ti_link _ _ _ HT o Ho) as L. destruct (start o) as [b|]; cbn in L; [|rewrite L in Hx; destruct Hx].
  destruct L as [_ L]. pose proof (ti_len _ _ _ HT) as HL. clear - L Hx Hf HL. unfold MAXREGSECT in HL.
  induction L as [|b b' l Hne Hn Hr IH]; [destruct Hx|]. destruct Hx as [->|Hx]; auto.
  assert (b' = FREESECT) by congruence. subst b'. inversion Hr; subst. apply znth_Some in H0. unfold FREESECT in *. lia.
Qed.

(** the containers after close: shorter, everything else as it was *)
Record Cut (s s1 : cfb) (m n : Z) : Prop := {
  u_n : used_end (minifat s) n;
  u_range : 0 <= n <= zlen (minifat s);
  u_ents : forall j, j <> 0 -> ents s1 j = ents s j;
  u_rsid : e_sid (ents s1 0) = e_sid (ents s 0);
  u_rsize : 0 <= e_size (ents s 0) < 2 ^ 63 -> 0 <= e_size (ents s1 0) < 2 ^ 63;
  u_none : e_sid (ents s 0) = None -> s1 = s;
  u_size : e_sid (ents s 0) <> None -> e_size (ents s1 0) = Z.max 1 n * mss s /\ m * ss s < e_size (ents s1 0) + ss s;
  u_m : 0 <= m <= zlen (mini_chain s);
  u_cov : n <= m * (ss s / mss s);
  u_len : zlen (fat s1) = zlen (fat s);
  u_fields : exists t fr en, s1 = set_ents (set_ffree (set_fat s t) fr) en }.

Lemma close_mini_ok : forall s ch hw, Inv s ch hw -> Ext s ->
  exists s1 m n, close_mini s = Ok s1 /\ Cut s s1 m n /\ Inv0 (set_mini_chain s1 (ztake m (mini_chain s))) ch [] [] hw.
Proof.
  intros s ch hw [[H Hc] HS] X. pose proof (i_ft _ _ _ _ _ H) as HT. pose proof (i_mt _ _ _ _ _ H) as HM.
  assert (Ho : chain_owner OCont) by (split; discriminate).
  pose proof (ti_link _ _ _ HT OCont Ho) as L. cbn [fowned fstart] in L.
  unfold close_mini. destruct (e_sid (ents s 0)) as [b|] eqn:Esid; cbn in L.
  2:{ assert (exists n, used_end (minifat s) n /\ 0 <= n <= zlen (minifat s) /\ n <= 0) as (n & U & Rn & Nn).
      { destruct (minifat s) as [|v r] eqn:Em.
        - exists 0. split; [exists []; split; [reflexivity|]; split; auto|]. change (zlen (@nil Z)) with 0. lia.
        - destruct (used_end_exists (v :: r)) as (i & n & _ & U & _ & Rn); [discriminate|]. rewrite <- Em in *. exists n. split; auto. split; auto.
          destruct (Z.le_gt_cases n 0); auto. exfalso. destruct (used_end_last _ _ U ltac:(lia)) as (w & Hw & Nw).
          destruct (i_mc _ _ _ _ _ H _ _ Hw) as [[o Hx]|[]].
          destruct (chain_owner_dec o) as [C|C].
          + destruct (i_hw _ _ _ _ _ H) as (A & _ & _ & _ & A4). assert (n - 1 < hw).
            { apply (A4 o); auto. destruct C; auto. }
            unfold cover in Hc. rewrite L in Hc. change (zlen (@nil Z)) with 0 in Hc. lia.
          + apply (ti_free _ _ _ HM o _ C) in Hx. congruence. }
      exists s, 0, n. split; auto. split.
      - constructor; auto; try congruence; try lia. 
        + rewrite L. change (zlen (@nil Z)) with 0. lia.
        + exists (fat s), (ffree s), (ents s). destruct s; reflexivity.
      - rewrite L. rewrite ztake_0 by lia. replace (set_mini_chain s []) with s; auto. rewrite <- L. destruct s; reflexivity. }
  assert (Hne : mini_chain s <> []).
  { intros E. rewrite E in L. destruct L as [Sp L]. inversion L. subst. discriminate. }
  assert (Hmf : minifat s <> []) by (destruct (x_cont _ X); congruence).
  destruct (used_end_exists _ Hmf) as (i & n & Ei & U & Hn & Rn). rewrite Ei. cbn [bind].
  set (size := (zlen (minifat s) - i) * mss s). set (N := Z.max 1 n).
  assert (EN : zlen (minifat s) - i = N) by (unfold N; lia). unfold size. rewrite EN.
  unfold stream_open. cbn [is_mini_stream Z.eqb table]. 
  assert (Est : e_sid (ents (CfbModel.set_size s 0 (N * mss s)) 0) = Some b) by (cbn; auto).
  rewrite Est. cbn [fat CfbModel.set_size set_ents].
  change (fat (CfbModel.set_size s 0 (N * mss s))) with (fat s).
  rewrite (linked_get (fat s) (Some b) (mini_chain s) L). cbn [bind]. unfold stream_truncate.
  cbn [h_ent h_pos h_chain is_mini_stream Z.eqb mss mmax ss ents CfbModel.set_size set_ents e_size].
  pose proof (per_sector _ _ _ _ _ H) as [P1 P2]. pose proof (i_mss _ _ _ _ _ H) as Hm0.
  assert (HN : 1 <= N) by (unfold N; lia).
  replace (N * mss s =? 0) with false by (assert (0 < N * mss s) by (apply Z.mul_pos_pos; lia); lia). rewrite Z.ltb_irrefl, andb_false_r. cbn [bind].
  set (cnt := (N * mss s + ss s - 1) / ss s).
  assert (Hl1 : 1 <= zlen (mini_chain s)) by (destruct (mini_chain s) as [|x l]; [congruence|rewrite zlen_cons; pose proof (zlen_nonneg _ l); lia]).
  assert (Hss : ss s = ss s / mss s * mss s).
  { pose proof (Z.div_mod (ss s) (mss s) ltac:(lia)) as E. rewrite (i_div _ _ _ _ _ H) in E. lia. }
  set (per := ss s / mss s) in *.
  assert (Hcov : N <= zlen (mini_chain s) * per).
  { unfold N. destruct (Z.le_gt_cases n 0); [rewrite Z.max_l by lia; clear - Hl1 P1; nia|].
    destruct (used_end_last _ _ U ltac:(lia)) as (w & Hw & Nw).
    destruct (i_mc _ _ _ _ _ H _ _ Hw) as [[o Hx]|[]]. destruct (chain_owner_dec o) as [C|C].
    - destruct (i_hw _ _ _ _ _ H) as (A & _ & _ & _ & A4). assert (n - 1 < hw) by (apply (A4 o); auto; destruct C; auto).
      unfold cover in Hc. fold per in Hc. lia.
    - apply (ti_free _ _ _ HM o _ C) in Hx. congruence. }
  destruct (ceil_bound (N * mss s) (ss s)) as (B1 & B2 & B3); [lia|clear - HN Hm0; nia|]. fold cnt in B1, B2, B3.
  assert (Hcnt : cnt <= zlen (mini_chain s)).
  { assert (Q : N * mss s <= zlen (mini_chain s) * per * mss s) by (apply Z.mul_le_mono_nonneg_r; lia).
    assert (Q2 : zlen (mini_chain s) * per * mss s = zlen (mini_chain s) * ss s) by (rewrite Hss at 1; ring).
    assert (Q3 : (N * mss s + ss s - 1) / ss s < zlen (mini_chain s) + 1) by (apply Z.div_lt_upper_bound; lia). fold cnt in Q3. lia. }
  assert (HNm : 0 < N * mss s) by (apply Z.mul_pos_pos; lia).
  assert (Hc1 : 1 <= cnt). { destruct (Z.le_gt_cases 1 cnt); auto. assert (cnt = 0) as Q by lia. rewrite Q in B1. lia. }
  assert (Hcn : n <= cnt * per).
  { assert (Q2 : cnt * ss s = cnt * per * mss s) by (rewrite Hss at 1; ring).
    assert (Q : N * mss s <= cnt * per * mss s) by lia. apply Z.mul_le_mono_pos_r in Q; [|lia]. lia. }
  assert (Hsz : N * mss s < 2 ^ 63).
  { pose proof (ti_len _ _ _ HM) as Q. unfold MAXREGSECT in Q. rewrite (x_mss _ X). unfold N. pose proof Rn. lia. }
  destruct (cnt <? zlen (mini_chain s)) eqn:Elt.
  - destruct (znth_in_range _ (mini_chain s) (cnt - 1) ltac:(lia)) as [l El].
    destruct (znth_in_range _ (mini_chain s) cnt ltac:(lia)) as [y Ey]. rewrite El, Ey.
    assert (Esp : mini_chain s = ztake cnt (mini_chain s) ++ zdrop cnt (mini_chain s)) by (rewrite ztake_zdrop; auto).
    assert (Edr : exists tl2, zdrop cnt (mini_chain s) = y :: tl2).
    { destruct (zdrop cnt (mini_chain s)) as [|z tl2] eqn:Ez.
      - apply (f_equal (@zlen Z)) in Ez. rewrite zlen_zdrop in Ez by lia. change (zlen (@nil Z)) with 0 in Ez. lia.
      - exists tl2. assert (Q : znth (zdrop cnt (mini_chain s)) 0 = Some y) by (rewrite znth_zdrop by lia; rewrite Z.add_0_r; auto).
        rewrite Ez in Q. cbn in Q. congruence. }
    destruct Edr as [tl2 Edr].
    assert (Hlast : last (ztake cnt (mini_chain s)) 0 = l).
    { assert (Ha : znth (ztake cnt (mini_chain s)) (cnt - 1) = Some l) by (rewrite znth_ztake by lia; replace (cnt - 1 <? cnt) with true by lia; auto).
      assert (Hz : zlen (ztake cnt (mini_chain s)) = cnt) by (rewrite zlen_ztake; lia).
      destruct (ztake cnt (mini_chain s)) as [|a0 r0] using rev_ind; [change (zlen (@nil Z)) with 0 in Hz; lia|]. rewrite last_last. rewrite zlen_app in Hz. change (zlen [a0]) with 1 in Hz.
      rewrite znth_app2 in Ha by lia. replace (cnt - 1 - zlen r0) with 0 in Ha by lia. cbn in Ha. congruence. }
    unfold free_fat_chain. cbn [table].
    assert (Hget : get_fat_chain (fat s) (Some y) = Ok (zdrop cnt (mini_chain s))).
    { destruct L as [_ Lc]. rewrite Esp, Edr in Lc. pose proof (chain_from_range _ _ _ Lc y ltac:(apply in_or_app; right; left; auto)) as Hr.
      apply chain_suffix in Lc. rewrite Edr. pose proof (ti_len _ _ _ HT). apply get_chain_Ok; auto. apply special_small. lia. }
    change (fat (CfbModel.set_size s 0 (N * mss s))) with (fat s). rewrite Hget. cbn [bind].
    fold (free_all (fat s) (zdrop cnt (mini_chain s))). cbn [table set_table].
    set (ft := free_all (fat s) (zdrop cnt (mini_chain s))).
    eexists _, cnt, n. split; [reflexivity|]. split.
    + constructor; auto; cbn -[Z.pow Z.max zdrop ztake]; try lia; try congruence.
      * intros j Hj. replace (j =? 0) with false by lia. reflexivity.
      * rewrite zlen_zupd. unfold ft. apply zlen_free_all.
      * exists (zupd ft l ENDOFCHAIN), (rev (zdrop cnt (mini_chain s)) ++ ffree s). eexists. reflexivity.
    + apply (Inv0_free_o s _ ch ch hw OCont (ztake cnt (mini_chain s)) (zdrop cnt (mini_chain s))); auto.
      * repeat split; auto.
      * repeat split.
      * split; [reflexivity|]. split; [|intros []; try reflexivity; intros _; cbn [mstart]; unfold mini; cbn -[Z.mul]; destruct (e =? 0); reflexivity].
        intros []; try reflexivity. cbn [mowned]. unfold mini. cbn -[Z.mul]. destruct (e =? 0); reflexivity.
      * intros o'. unfold oupd. destruct (owner_eq_dec o' OCont) as [->|N1]; [reflexivity|].
        destruct (owner_eq_dec o' OFree) as [->|N2]; [reflexivity|]. destruct o'; try reflexivity; try congruence.
        cbn [fowned]. unfold reg. cbn -[Z.mul]. destruct (e =? 0); reflexivity.
      * assert (Hnn : ztake cnt (mini_chain s) <> []). { intros Q. apply (f_equal (@zlen Z)) in Q. rewrite zlen_ztake in Q by lia. change (zlen (@nil Z)) with 0 in Q. lia. }
        destruct (ztake cnt (mini_chain s)) eqn:Q; [congruence|]. rewrite Hlast. reflexivity.
      * assert (Hnn : ztake cnt (mini_chain s) <> []). { intros Q. apply (f_equal (@zlen Z)) in Q. rewrite zlen_ztake in Q by lia. change (zlen (@nil Z)) with 0 in Q. lia. }
        intros o' Ho'. unfold oupd. destruct (ztake cnt (mini_chain s)) eqn:Q; [congruence|].
        destruct (owner_eq_dec o' OCont) as [->|N1]; [reflexivity|]. destruct o'; try reflexivity; try congruence.
        cbn [fstart]. unfold reg. cbn -[Z.mul]. destruct (e =? 0) eqn:Ee; cbn; auto.
      * apply (i_dir _ _ _ _ _ H).
      * apply (i_mfc _ _ _ _ _ H).
  - cbn [bind]. assert (Ecnt : cnt = zlen (mini_chain s)) by lia. eexists _, cnt, n. split; [reflexivity|]. split.
    + constructor; auto; cbn -[Z.pow Z.max zdrop ztake]; try lia; try congruence.
      * intros j Hj. replace (j =? 0) with false by lia. reflexivity.
      * exists (fat s), (ffree s). eexists. reflexivity.
    + rewrite ztake_all by lia. destruct H. constructor; auto.
      * eapply TInv_ext; [| |exact i_ft]; intros []; try reflexivity; cbn [fowned fstart]; unfold reg; cbn -[Z.mul]; intros; destruct (e =? 0) eqn:Ee; cbn; auto.
      * eapply TInv_ext; [| |exact i_mt]; intros []; try reflexivity; cbn [mowned mstart]; unfold mini; cbn -[Z.mul]; intros; destruct (e =? 0) eqn:Ee; cbn; auto.
      * intros x v Hv. destruct (i_fc x v Hv) as [[o Hx]|Hx]; [left; exists o|right; auto].
        destruct o; auto. cbn [fowned] in *. unfold reg in *. cbn -[Z.mul] in *. destruct (e =? 0); auto.
      * intros x v Hv. destruct (i_mc x v Hv) as [[o Hx]|Hx]; [left; exists o|right; auto].
        destruct o; auto. cbn [mowned] in *. unfold mini in *. cbn -[Z.mul] in *. destruct (e =? 0); auto.
      * intros E o Hoo. specialize (i_rl E o Hoo). destruct o; auto. cbn [fowned] in *. unfold reg in *. cbn -[Z.mul] in *. destruct (e =? 0); auto.
      * destruct i_hw as (A & A1 & A2 & A3 & A4). exists A. split; [exact A1|]. split; [exact A2|]. split; [exact A3|].
        intros o x Hoo Hx. apply (A4 o x Hoo). destruct o; auto. cbn [mowned] in *. unfold mini in *. cbn -[Z.mul] in *. destruct (e =? 0); auto.
Qed.

(** ** Reloading *)
Record Reload (s s' : cfb) : Prop := {
  r_ss : ss s' = ss s; r_mss : mss s' = mss s; r_mmax : mmax s' = mmax s;
  r_fat : fat s' = fat s; r_ffree : ffree s' = free_from 0 (fat s);
  r_difat : difat s' = difat s; r_dstart : difat_start s' = difat_start s; r_dcnt : difat_cnt s' = difat_cnt s; r_fcnt : fat_cnt s' = fat_cnt s;
  r_minifat : minifat s' = minifat s; r_mfree : mfree s' = free_from 0 (minifat s);
  r_mstart : minifat_start s' = minifat_start s; r_mcnt : minifat_cnt s' = minifat_cnt s; r_mchain : minifat_chain s' = minifat_chain s;
  r_cont : mini_chain s' = mini_chain s; r_dir : dir_chain s' = dir_chain s;
  r_ents : forall j, ents s' j = ents s j;
  r_cache : cache_ok s' }.

Lemma table_value_used : forall tbl own start o x, TInv tbl own start -> chain_owner o -> In x (own o) -> znth tbl x <> Some FREESECT.
Proof.
  intros tbl own start o x HT C Hx E. pose proof (ti_link _ _ _ HT o C) as L.
  destruct (start o) as [b|]; cbn in L; [|rewrite L in Hx; destruct Hx].
  destruct L as [_ L]. pose proof (ti_len _ _ _ HT) as HL. clear - L Hx E HL. unfold MAXREGSECT in HL.
  induction L as [|b b' l Hne Hn Hr IH]; [destruct Hx|]. destruct Hx as [->|Hx]; auto.
  assert (b' = FREESECT) by congruence. subst b'. inversion Hr; subst. apply znth_Some in H0. unfold FREESECT in *. lia.
Qed.

(** the free list rebuilt from the table has the same members *)
Lemma freelist_same : forall tbl own start exc, TInv tbl own start -> Cov tbl own exc -> (forall x, ~ exc x FREESECT) -> own OLim = [] ->
  forall x, In x (free_from 0 tbl) <-> In x (own OFree).
Proof.
  intros tbl own start exc HT HC He HL x. rewrite In_free_from, Z.sub_0_r. split.
  - intros [Hx Hv]. destruct (HC x _ Hv) as [[o Ho]|He']; [|exfalso; eapply He; eauto].
    destruct (chain_owner_dec o) as [C|C]; [exfalso; eapply table_value_used; eauto|].
    destruct (not_chain_owner _ C) as [-> | ->]; auto. rewrite HL in Ho. destruct Ho.
  - intros Hx. assert (Hv : znth tbl x = Some FREESECT) by (apply (ti_free _ _ _ HT OFree x); auto; intros [Q _]; congruence).
    split; auto. apply znth_Some in Hv. lia.
Qed.

Lemma TInv_free : forall tbl own own' start start', TInv tbl own start -> (forall o, o <> OFree -> own' o = own o) ->
  (forall o, chain_owner o -> start' o = start o) ->
  own' OFree = free_from 0 tbl -> (forall x, In x (free_from 0 tbl) <-> In x (own OFree)) -> TInv tbl own' start'.
Proof.
  intros tbl own own' start start' [H1 H2 H3 H4 H5] Eo Es Ef Hf.
  assert (Hin : forall o x, In x (own' o) <-> In x (own o)).
  { intros o x. destruct (owner_eq_dec o OFree) as [->|N]; [rewrite Ef; auto|rewrite Eo by auto; tauto]. }
  constructor; auto.
  - intros o C. rewrite Es by auto; rewrite Eo by (destruct C; auto). auto.
  - intros o x C Hx. apply Hin in Hx. eauto.
  - intros o. destruct (owner_eq_dec o OFree) as [->|N]; [rewrite Ef; apply NoDup_free_from|rewrite Eo by auto; auto].
  - intros o1 o2 x Hx Hy. apply Hin in Hx. apply Hin in Hy. eauto.
Qed.

Lemma Inv0_reload : forall s s' ch hw n, Inv0 s ch [] [] hw -> Reload s s' -> used_end (minifat s) n -> 0 <= n <= zlen (minifat s) ->
  Inv0 s' ch [] [] n.
Proof.
  intros s s' ch hw n H [] U Rn. destruct H.
  assert (Hfo : forall o, o <> OFree -> fowned s' ch [] o = fowned s ch [] o).
  { intros [] N; try congruence; cbn [fowned]; try congruence. unfold reg. rewrite r_ents0, r_mmax0. auto. }
  assert (Hfs : forall o, fstart s' o = fstart s o).
  { intros []; cbn [fstart]; try congruence; unfold reg; rewrite ?r_mcnt0, ?r_mstart0, ?r_ents0, ?r_mmax0; auto. }
  assert (Hmo : forall o, o <> OFree -> mowned s' ch [] o = mowned s ch [] o).
  { intros [] N; try congruence; cbn [mowned]; try congruence. unfold mini. rewrite r_ents0, r_mmax0. auto. }
  assert (Hms : forall o, mstart s' o = mstart s o).
  { intros []; cbn [mstart]; try congruence; unfold mini; rewrite ?r_ents0, ?r_mmax0; auto. }
  assert (Ff : forall x, In x (free_from 0 (fat s)) <-> In x (ffree s)).
  { apply (freelist_same _ _ _ _ i_ft i_fc); auto. intros x [E|[E|[E _]]]; discriminate E. }
  assert (Fm : forall x, In x (free_from 0 (minifat s)) <-> In x (mfree s)).
  { apply (freelist_same _ _ _ _ i_mt i_mc); auto. }
  constructor; rewrite ?r_ss0, ?r_mss0, ?r_fat0, ?r_minifat0, ?r_dir0, ?r_mcnt0, ?r_mchain0; auto.
  - apply (TInv_free _ (fowned s ch []) _ (fstart s)); auto.
  - apply (TInv_free _ (mowned s ch []) _ (mstart s)); auto.
  - intros x v Hv. destruct (i_fc x v Hv) as [[o Ho]|He]; [left; exists o|right; unfold fexc in *; rewrite r_ss0; auto].
    destruct (owner_eq_dec o OFree) as [->|N]; [cbn [fowned]; rewrite r_ffree0; apply Ff; auto|rewrite Hfo; auto].
  - intros x v Hv. destruct (i_mc x v Hv) as [[o Ho]|He]; [left; exists o|right; auto].
    destruct (owner_eq_dec o OFree) as [->|N]; [cbn [mowned]; rewrite r_mfree0; apply Fm; auto|rewrite Hmo; auto].
  - apply (RInv_marks s); auto; try congruence; rewrite r_fat0; tauto.
  - intros E o Ho. rewrite Hfo by auto. apply i_rl; auto.
  - destruct (used_end_freelist _ _ U) as (A & EA & HA); [lia|]. exists A. rewrite r_mfree0, r_minifat0. split; auto. split; auto. split; auto.
    intros o x Ho Hx. rewrite Hmo in Hx by auto. destruct (chain_owner_dec o) as [C|C].
    + apply (owned_below _ _ _ n o x i_mt U C Hx).
    + destruct (not_chain_owner _ C) as [-> | ->]; [congruence|]. destruct Hx.
Qed.

(** ** Slots of the directory *)
Definition spos (ssz : Z) (dc : list Z) (i : Z) : Z := (nthd dc (i * 128 / ssz) + 1) * ssz + i * 128 mod ssz.
Definition slot (f : list Z) (ssz : Z) (dc : list Z) (i : Z) : list Z := map (fun k => fbyte f (spos ssz dc i + k)) (zseq 0 128).
Definition in_dir (ssz : Z) (dc : list Z) (i : Z) : Prop := 0 <= i < zlen dc * (ssz / 128).

Lemma slot_index : forall ssz dc i, 128 <= ssz -> ssz mod 128 = 0 -> in_dir ssz dc i ->
  0 <= i * 128 / ssz < zlen dc /\ 0 <= i * 128 mod ssz /\ i * 128 mod ssz + 128 <= ssz.
Proof.
  intros ssz dc i H1 H2 Hi. unfold in_dir in Hi. set (per := ssz / 128) in *.
  assert (E : ssz = per * 128) by (unfold per; pose proof (Z.div_mod ssz 128 ltac:(lia)); lia).
  assert (Hp : 0 < per) by lia. rewrite E. rewrite Z.div_mul_cancel_r by lia. rewrite Z.mul_mod_distr_r by lia.
  pose proof (Z.mod_pos_bound i per Hp). split; [|split; nia]. split; [apply Z.div_pos; lia|apply Z.div_lt_upper_bound; lia].
Qed.

Lemma spos_sector : forall ssz dc i k, 128 <= ssz -> ssz mod 128 = 0 -> in_dir ssz dc i -> 0 <= k < 128 ->
  exists x r, In x dc /\ 0 <= r < ssz /\ spos ssz dc i + k = (x + 1) * ssz + r.
Proof.
  intros ssz dc i k H1 H2 Hi Hk. destruct (slot_index _ _ _ H1 H2 Hi) as (A & B & C).
  exists (nthd dc (i * 128 / ssz)), (i * 128 mod ssz + k). split; [apply nthd_In; auto|]. split; [lia|]. unfold spos. lia.
Qed.

Lemma spos_inj : forall ssz dc i j k k', 128 <= ssz -> ssz mod 128 = 0 -> NoDup dc -> in_dir ssz dc i -> in_dir ssz dc j ->
  0 <= k < 128 -> 0 <= k' < 128 -> spos ssz dc i + k = spos ssz dc j + k' -> i = j /\ k = k'.
Proof.
  intros ssz dc i j k k' H1 H2 ND Hi Hj Hk Hk' E.
  destruct (slot_index _ _ _ H1 H2 Hi) as (A & B & C). destruct (slot_index _ _ _ H1 H2 Hj) as (A' & B' & C').
  unfold spos in E. destruct (sector_unique ssz (nthd dc (i * 128 / ssz)) (i * 128 mod ssz + k) (nthd dc (j * 128 / ssz)) (j * 128 mod ssz + k')) as [E1 E2]; try lia.
  apply nthd_inj in E1; auto.
  pose proof (Z.div_mod (i * 128) ssz ltac:(lia)). pose proof (Z.div_mod (j * 128) ssz ltac:(lia)).
  rewrite E1 in H. assert (i * 128 + k = j * 128 + k') by lia. lia.
Qed.

Lemma slot_ext : forall f f' ssz dc dc' i, (forall k, 0 <= k < 128 -> fbyte f' (spos ssz dc' i + k) = fbyte f (spos ssz dc i + k)) ->
  slot f' ssz dc' i = slot f ssz dc i.
Proof. intros. apply map_ext_in. intros k Hk. apply In_zseq in Hk. apply H. lia. Qed.

Lemma znth_slot : forall f ssz dc i k, 0 <= k < 128 -> znth (slot f ssz dc i) k = Some (fbyte f (spos ssz dc i + k)).
Proof. intros. unfold slot. rewrite znth_map, znth_zseq by lia. reflexivity. Qed.

Lemma zlen_slot : forall f ssz dc i, zlen (slot f ssz dc i) = 128.
Proof. intros. unfold slot. rewrite zlen_map. apply zlen_zseq. lia. Qed.

Lemma spos_app : forall ssz dc ext i, 128 <= ssz -> ssz mod 128 = 0 -> in_dir ssz dc i -> spos ssz (dc ++ ext) i = spos ssz dc i.
Proof. intros. unfold spos. destruct (slot_index ssz dc i) as (A & B & C); auto. rewrite nthd_app by auto. reflexivity. Qed.

Lemma in_dir_app : forall ssz dc ext i, 128 <= ssz -> in_dir ssz dc i -> in_dir ssz (dc ++ ext) i.
Proof. unfold in_dir. intros. rewrite zlen_app. pose proof (zlen_nonneg _ ext). assert (1 <= ssz / 128) by (apply Z.div_le_lower_bound; lia). nia. Qed.

(** writing one slot *)
Lemma zlen_write_at : forall s sid off d, 0 <= sid -> 0 <= off -> 0 < ss s -> zlen (file s) <= zlen (file (write_at s sid off d)).
Proof. intros. unfold write_at. cbn [file set_file]. apply zlen_fwrite_ge. nia. Qed.

Lemma write_slot_ok : forall s i d, 128 <= ss s -> ss s mod 128 = 0 -> NoDup (dir_chain s) -> (forall x, In x (dir_chain s) -> 0 <= x) ->
  in_dir (ss s) (dir_chain s) i -> zlen d = 128 ->
  exists s', write_slot s i d = Ok s' /\ FileOnly s s' /\ (cache_ok s -> cache_ok s') /\ zlen (file s) <= zlen (file s') /\
    slot (file s') (ss s) (dir_chain s) i = d /\
    (forall j, in_dir (ss s) (dir_chain s) j -> j <> i -> slot (file s') (ss s) (dir_chain s) j = slot (file s) (ss s) (dir_chain s) j) /\
    same_out (ss s) (fun x => In x (dir_chain s)) (file s) (file s').
Proof.
  intros s i d H1 H2 ND Hr Hi Hd. destruct (slot_index _ _ _ H1 H2 Hi) as (A & B & C). unfold write_slot.
  destruct (znth_in_range _ (dir_chain s) (i * 128 / ss s) A) as [sid Es]. rewrite Es.
  assert (En : nthd (dir_chain s) (i * 128 / ss s) = sid) by (unfold nthd; rewrite Es; auto).
  assert (Hs : In sid (dir_chain s)) by (apply znth_In in Es; auto). specialize (Hr sid Hs).
  assert (F : FileOnly s (write_at s sid (i * 128 mod ss s) d)) by reflexivity.
  assert (HB : forall a, fbyte (file (write_at s sid (i * 128 mod ss s) d)) a =
    if ((sid + 1) * ss s + i * 128 mod ss s <=? a) && (a <? (sid + 1) * ss s + i * 128 mod ss s + zlen d) then nthd d (a - ((sid + 1) * ss s + i * 128 mod ss s)) else fbyte (file s) a).
  { intros a. unfold write_at. cbn [file set_file]. apply fbyte_fwrite. nia. }
  eexists. split; [reflexivity|]. split; auto. split; [intros HC; apply write_at_ok; auto; lia|]. split; [apply zlen_write_at; lia|].
  assert (Ep : spos (ss s) (dir_chain s) i = (sid + 1) * ss s + i * 128 mod ss s) by (unfold spos; rewrite En; auto).
  rewrite <- Ep, Hd in HB. split; [|split].
  - apply znth_ext; [rewrite zlen_slot; auto|]. rewrite zlen_slot. intros k Hk. rewrite znth_slot by lia. rewrite HB.
    replace ((spos (ss s) (dir_chain s) i <=? spos (ss s) (dir_chain s) i + k) && (spos (ss s) (dir_chain s) i + k <? spos (ss s) (dir_chain s) i + 128)) with true by lia.
    replace (spos (ss s) (dir_chain s) i + k - spos (ss s) (dir_chain s) i) with k by lia.
    destruct (znth_in_range _ d k ltac:(lia)) as [v Hv]. unfold nthd. rewrite Hv. auto.
  - intros j Hj Hji. apply slot_ext. intros k Hk. rewrite HB.
    destruct ((spos (ss s) (dir_chain s) i <=? spos (ss s) (dir_chain s) j + k) && (spos (ss s) (dir_chain s) j + k <? spos (ss s) (dir_chain s) i + 128)) eqn:E; auto.
    apply andb_true_iff in E. destruct E as [E1 E2].
    destruct (spos_inj (ss s) (dir_chain s) j i k (spos (ss s) (dir_chain s) j + k - spos (ss s) (dir_chain s) i)) as [Q _]; auto; try lia.
  - intros x k Hn Hx Hk. rewrite HB.
    destruct ((spos (ss s) (dir_chain s) i <=? (x + 1) * ss s + k) && ((x + 1) * ss s + k <? spos (ss s) (dir_chain s) i + 128)) eqn:E; auto.
    apply andb_true_iff in E. destruct E as [E1 E2]. rewrite Ep in E1, E2.
    destruct (sector_unique (ss s) x k sid ((x + 1) * ss s + k - (sid + 1) * ss s)) as [Q _]; try lia. congruence.
Qed.

Lemma FileOnly_fields : forall s s', FileOnly s s' -> ss s' = ss s /\ dir_chain s' = dir_chain s.
Proof. intros s s' ->. split; reflexivity. Qed.

Lemma write_slots_ok : forall ids s img, 128 <= ss s -> ss s mod 128 = 0 -> NoDup (dir_chain s) -> (forall x, In x (dir_chain s) -> 0 <= x) ->
  (forall i, In i ids -> in_dir (ss s) (dir_chain s) i /\ zlen (img i) = 128) ->
  exists s', write_slots s ids img = Ok s' /\ FileOnly s s' /\ (cache_ok s -> cache_ok s') /\ zlen (file s) <= zlen (file s') /\
    (forall i, In i ids -> slot (file s') (ss s) (dir_chain s) i = img i) /\
    (forall j, in_dir (ss s) (dir_chain s) j -> ~ In j ids -> slot (file s') (ss s) (dir_chain s) j = slot (file s) (ss s) (dir_chain s) j) /\
    same_out (ss s) (fun x => In x (dir_chain s)) (file s) (file s').
Proof.
  induction ids as [|i ids IH]; intros s img H1 H2 ND Hr Hids; cbn [write_slots].
  - exists s. split; auto. split; [destruct s; reflexivity|]. split; auto. split; [lia|]. split; [intros i []|]. split; auto. apply same_out_refl.
  - destruct (Hids i (or_introl eq_refl)) as [Hi Hl].
    destruct (write_slot_ok s i (img i) H1 H2 ND Hr Hi Hl) as (s1 & E1 & F1 & C1 & L1 & S1 & O1 & B1). rewrite E1. cbn [bind].
    destruct (FileOnly_fields _ _ F1) as [Ess Edc].
    destruct (IH s1 img) as (s2 & E2 & F2 & C2 & L2 & S2 & O2 & B2); rewrite ?Ess, ?Edc; auto.
    { intros j Hj. apply Hids. right. auto. }
    rewrite Ess, Edc in *. exists s2. split; auto. split; [unfold FileOnly in *; rewrite F2, F1; reflexivity|]. split; auto. split; [lia|].
    split; [|split].
    + intros j [<-|Hj]; auto. destruct (in_dec Z.eq_dec i ids) as [Hin|Hin]; auto. rewrite O2 by auto. auto.
    + intros j Hj Hn. rewrite O2 by (auto; intro; apply Hn; right; auto). apply O1; auto. intros ->. apply Hn. left. auto.
    + eapply same_out_weak; [|eapply same_out_trans; eauto]. cbn. tauto.
Qed.

Lemma In_insert : forall x i l, In x (insert_id i l) <-> x = i \/ In x l.
Proof. intros x i l. induction l as [|a l IH]; cbn; [intuition|]. destruct (i <=? a); cbn; [intuition|]. rewrite IH. intuition. Qed.
Lemma In_sort : forall x l, In x (sort_ids l) <-> In x l.
Proof. intros x l. induction l as [|a l IH]; cbn; [tauto|]. rewrite In_insert, IH. intuition. Qed.
