(** Reachable states can be saved: the invariants of CfbInv.v and CfbExtra.v give [Tables]. *)
From Verif Require Import Base BaseFacts Codec CodecFacts ObjModel PropsObj LRUModel CfbModel ChainSpec ChainProofs TableInv DifatInv CfbInv CfbBytes CfbStream CfbExtra CfbSave SaveFacts.
From Coq Require Import ZArith List Bool Lia.
Import ListNotations.
Open Scope Z_scope.
Notation length := List.length.

Lemma NoDup_range_le : forall l n, 0 <= n -> NoDup l -> (forall x, In x l -> 0 <= x < n) -> zlen l <= n.
Proof.
  intros l n Hn ND H. assert (Hl : (length l <= length (zseq 0 n))%nat).
  { apply NoDup_incl_length; auto. intros x Hx. apply In_zseq. specialize (H x Hx). lia. }
  assert (E : zlen (zseq 0 n) = n) by (apply zlen_zseq; lia). unfold zlen in *. lia.
Qed.

Lemma filter_all : forall A (p : A -> bool) l, (forall x, In x l -> p x = true) -> filter p l = l.
Proof. intros A p l. induction l as [|a l IH]; intros H; cbn; auto. rewrite H by (left; auto). rewrite IH; auto. intros; apply H; right; auto. Qed.
Lemma filter_none : forall A (p : A -> bool) l, (forall x, In x l -> p x = false) -> filter p l = [].
Proof. intros A p l. induction l as [|a l IH]; intros H; cbn; auto. rewrite H by (left; auto). apply IH; auto. intros; apply H; right; auto. Qed.

(** every entry of the two tables is a 32-bit number *)
Lemma owned_u32 : forall tbl own start, TInv tbl own start -> forall o x v, In x (own o) -> znth tbl x = Some v -> u32 v.
Proof.
  intros tbl own start H o x v Hx Hv. destruct (chain_owner_dec o) as [C|C].
  - pose proof (ti_link _ _ _ H o C) as L. destruct (start o) as [b|]; cbn in L; [|rewrite L in Hx; destruct Hx].
    destruct L as [_ L]. pose proof (ti_len _ _ _ H) as HL. clear H C. unfold u32, MAXREGSECT in *.
    induction L as [|b b' l Hne Hn Hr IH]; [destruct Hx|].
    destruct Hx as [->|Hx]; auto.
    rewrite Hn in Hv. inversion Hv; subst v. inversion Hr; subst; [unfold ENDOFCHAIN; lia|]. apply znth_Some in H0. lia.
  - apply (ti_free _ _ _ H o x C) in Hx. assert (v = FREESECT) by congruence. subst. apply u32_mark.
Qed.

Lemma fat_u32 : forall s ch fl ml hw, Inv0 s ch fl ml hw -> Forall u32 (fat s) /\ Forall u32 (minifat s).
Proof.
  intros s ch fl ml hw H. split; apply Forall_forall; intros v Hv; apply In_znth in Hv; destruct Hv as [x [_ Hx]].
  - destruct (i_fc _ _ _ _ _ H x v Hx) as [[o Ho]|[->|[->|[-> _]]]]; try (unfold u32, FATSECT, DIFSECT, ENDOFCHAIN; lia).
    eapply owned_u32; eauto. apply (i_ft _ _ _ _ _ H).
  - destruct (i_mc _ _ _ _ _ H x v Hx) as [[o Ho]|[]]. eapply owned_u32; eauto. apply (i_mt _ _ _ _ _ H).
Qed.

Record HdrOk (c : cfile) : Prop := {
  ho_class : zlen (c_class c) = 16;
  ho_minor : 0 <= c_minor c < 65536;
  ho_major : 0 <= c_major c < 65536;
  ho_sig : u32 (c_sig c);
  ho_start : hd_error (dir_chain (c_s c)) = Some (c_dstart c) }.

Lemma difat_fs : forall s row0 rows fs k, RInv_with s row0 rows fs k -> zlen (fat s) <= MAXREGSECT ->
  fat_sectors (difat s) = fs.
Proof.
  intros s row0 rows fs k (_ & _ & _ & _ & E & _ & Hf & _) HL. unfold fat_sectors. rewrite E, filter_app.
  rewrite (filter_all _ _ fs), (filter_none _ _ (repeat FREESECT k)), app_nil_r; auto.
  - intros x Hx. apply repeat_spec in Hx. subst. reflexivity.
  - intros x Hx. apply Hf in Hx. apply znth_Some in Hx. rewrite small_not_mark; auto. lia.
Qed.

Lemma Inv_Tables : forall c ch hw row0 rows fs k, Inv0 (c_s c) ch [] [] hw -> Ext (c_s c) -> HdrOk c ->
  RInv_with (c_s c) row0 rows fs k -> Tables c row0 rows (minifat_chain (c_s c)) /\ fat_sectors (difat (c_s c)) = fs.
Proof.
  intros c ch hw row0 rows fs k H X HO HR. set (s := c_s c) in *.
  pose proof (i_ft _ _ _ _ _ H) as HT. pose proof (ti_len _ _ _ HT) as HL. pose proof (zlen_nonneg _ (fat s)) as Hz.
  pose proof (difat_fs _ _ _ _ _ HR HL) as Efs. destruct HR as (R1 & R2 & R3 & R4 & R5 & R6 & R7 & R8 & R9 & R10 & R11).
  destruct (fat_u32 _ _ _ _ _ H) as [U1 U2]. split; auto.
  assert (Rg : forall x, In x (table_sectors s rows (minifat_chain s)) -> 0 <= x < zlen (fat s)).
  { intros x Hx. unfold table_sectors in Hx. rewrite Efs, !in_app_iff in Hx. destruct Hx as [Hx|[Hx|Hx]].
    - apply R7 in Hx. eapply znth_Some; eauto.
    - apply R11 in Hx. eapply znth_Some; eauto.
    - eapply (TInv_range _ _ _ HT OMFat). exact Hx. }
  assert (Hcnt : forall l, NoDup l -> (forall x, In x l -> 0 <= x < zlen (fat s)) -> u32 (zlen l)).
  { intros l ND Hl. pose proof (NoDup_range_le _ _ Hz ND Hl). pose proof (zlen_nonneg _ l). unfold u32, MAXREGSECT in *. lia. }
  assert (Hmf : u32 (minifat_start s) /\ get_fat_chain (fat s) (Some (minifat_start s)) = Ok (minifat_chain s)).
  { pose proof (ti_link _ _ _ HT OMFat ltac:(split; discriminate)) as L. cbn [fowned fstart] in L.
    destruct (minifat_cnt s =? 0) eqn:E0; cbn in L.
    - rewrite (x_mstart _ X L). split; [apply u32_mark|]. fold s. rewrite L. reflexivity.
    - split; [|apply (linked_get _ (Some (minifat_start s))); exact L]. destruct L as [Sp L].
      inversion L as [Eq | b b1 l1 Hne Hn Hr]; [rewrite <- Eq in Sp; discriminate|]. subst. apply znth_Some in Hn. unfold u32, MAXREGSECT in *. lia. }
  destruct Hmf as [Hm1 Hm2].
  assert (Hdr : forall x, In x (dir_chain s) -> 0 <= x < zlen (fat s)) by (intros x Hx; eapply (TInv_range _ _ _ HT ODir); exact Hx).
  constructor; auto.
  - unfold hdr_ok, header_of. cbn [h_class h_minor h_major h_ss h_mss h_dir_cnt h_fat_cnt h_dir_start h_sig h_mmax h_mf_start h_mf_cnt h_df_start h_df_cnt h_difat].
    fold s. split; [apply HO|]. split; [apply HO|]. split; [apply HO|]. split; [apply (x_ss _ X)|]. split; [apply (x_mss _ X)|].
    split. { rewrite (x_dcnt _ X). apply Hcnt; auto. apply (ti_nodup _ _ _ HT ODir). }
    split. { rewrite <- R8. apply Hcnt; auto. intros x Hx. apply R7 in Hx. eapply znth_Some; eauto. }
    split. { pose proof (ho_start _ HO) as Hs. fold s in Hs. destruct (dir_chain s) as [|d l]; [discriminate|]. injection Hs as <-.
             specialize (Hdr d (or_introl eq_refl)). unfold u32, MAXREGSECT in *. lia. }
    split; [apply HO|]. split; [apply (x_mmax _ X)|]. split; [exact Hm1|].
    split. { rewrite (i_mfc _ _ _ _ _ H). apply Hcnt; [apply (ti_nodup _ _ _ HT OMFat)|]. intros x Hx. eapply (TInv_range _ _ _ HT OMFat). exact Hx. }
    split; [apply (x_dstart _ X)|].
    split. { rewrite <- R4. assert (E : zlen (difat_sectors (difat_start s) rows) = zlen rows).
             { unfold difat_sectors, zlen. rewrite firstn_length. cbn [length]. rewrite map_length. lia. }
             rewrite <- E. apply Hcnt; auto. intros x Hx. apply R11 in Hx. eapply znth_Some; eauto. }
    rewrite R1. cbn [hd]. split; auto. pose proof (x_difat _ X) as Xd. rewrite R1 in Xd. inversion Xd; auto.
  - pose proof (x_difat _ X) as Xd. rewrite R1 in Xd. inversion Xd; auto.
  - fold s. unfold table_sectors. rewrite Efs. apply NoDup_app_iff. split; auto. split.
    + apply NoDup_app_iff. split; auto. split; [apply (ti_nodup _ _ _ HT OMFat)|].
      intros x Hx Hy. apply R11 in Hx. destruct (owned_nomark _ _ _ HT OMFat x Hy) as [N1 N2]; contradiction.
    + intros x Hx Hy. apply R7 in Hx. apply in_app_iff in Hy. destruct Hy as [Hy|Hy].
      * apply R11 in Hy. rewrite Hy in Hx. discriminate.
      * destruct (owned_nomark _ _ _ HT OMFat x Hy) as [N1 N2]; contradiction.
  - fold s. intros x Hx. apply Rg in Hx. lia.
  - fold s. rewrite Efs. auto.
  - apply (x_mlen _ X).
Qed.
