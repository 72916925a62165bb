(** A new file starts a session in the right state. *)
From Verif Require Import Base BaseFacts Codec CodecFacts DirEntryModel LRUModel CfbModel TableInv DifatInv CfbInv CfbBytes CfbStream CfbExtra StreamSpec StreamRun StreamInit
  CfbSave SaveFacts SaveInv CloseFacts Session SessionFacts SessionStep.
From Coq Require Import ZArith List Bool Lia.
Import ListNotations.
Open Scope Z_scope.

Lemma snew_SR : forall sector cap f cls root, sector = 512 \/ sector = 4096 -> zlen cls = 16 -> rest_okP root ->
  exists q, snew sector cap f cls root = Ok q /\ SR (pnew root) q.
Proof.
  intros sector cap f cls root Hs Hc Hr. unfold snew, create_file.
  assert (Hm4 : sector mod 4 = 0) by (destruct Hs as [-> | ->]; reflexivity).
  replace ((sector =? 4096) || (sector =? 512)) with true by lia.
  set (s := setup_empty sector cap f). set (c := mkcf s cls 62 4 0 1 (fun i => if i =? 0 then root else zeros 116) [0]).
  pose proof (setup_Inv sector cap f Hs) as HI. fold s in HI. pose proof (setup_Ext sector cap f Hs) as X. fold s in X.
  assert (HO : HdrOk c). { constructor; cbn; auto; try lia. unfold u32. lia. }
  destruct (i_r _ _ _ _ _ (proj1 (proj1 HI))) as (row0 & rows & fs & k & HR).
  destruct (Inv_Tables c _ _ row0 rows fs k (proj1 (proj1 HI)) X HO HR) as [TB Efs].
  rewrite (header_bytes_ok _ (tb_hdr _ _ _ _ TB)). cbn [bind].
  set (f1 := fwrite (file s) 0 _). set (f2 := fwrite f1 sector _).
  assert (Esec : fat_sectors (difat s) = [1]) by reflexivity.
  pose proof (tb_fatlen _ _ _ _ TB) as Hfl. change (c_s c) with s in Hfl. rewrite Esec in Hfl. change (zlen [1]) with 1 in Hfl. change (ss s) with sector in Hfl.
  unfold write_fat. rewrite Esec. rewrite Hfl. change (zlen [1]) with 1.
  replace (1 * (sector / 4) * 4) with sector by (destruct Hs as [-> | ->]; reflexivity).
  rewrite Z_mod_same_full, Z_div_same_full by lia. cbn [Z.eqb Pos.eqb bind].
  destruct (write_table_ok sector [1] f2 (fat s)) as (f3 & E3 & So & _ & _ & _); try lia.
  { repeat constructor. intros []. }
  { intros x [<-|[]]. lia. }
  { rewrite Hfl. change (zlen [1]) with 1. reflexivity. }
  { apply (tb_fatu _ _ _ _ TB). }
  rewrite E3. cbn [bind]. eexists. split; [reflexivity|].
  split; [|split; [|split; [|split]]]; cbn [q_f q_live c_s with_s].
  - exact (fresh_R sector cap f3 Hs).
  - exact (setup_Ext sector cap f3 Hs).
  - eapply HdrOk_same; [exact HO|reflexivity..].
  - constructor; cbn [c_s c_mod c_rest with_s].
    + intros i [<-|[]] Hn. exfalso. apply Hn. left. auto.
    + change (ss (set_file s f3)) with sector. change (dir_chain (set_file s f3)) with [0]. change (file (set_file s f3)) with f3.
      intros i Hi Hn _. assert (Hi' : 0 < i < sector / 128) by (unfold in_dir in Hi; change (zlen [0]) with 1 in Hi; assert (i <> 0) by (intros ->; apply Hn; left; auto); lia).
      unfold byte_at. rewrite znth_slot by lia. unfold spos.
      assert (B : 0 <= i * 128 + 66 < sector) by (destruct Hs as [-> | ->]; cbn in Hi'; lia).
      assert (Q : i * 128 / sector = 0) by (apply Z.div_small; lia). assert (Qm : i * 128 mod sector = i * 128) by (apply Z.mod_small; lia). rewrite Q, Qm.
      change (nthd [0] 0) with 0. rewrite <- Z.add_assoc. rewrite So by (try lia; intros [Z|[]]; lia).
      unfold f2. rewrite fbyte_fwrite by lia.
      assert (Lz : zlen (image root (ents s 0)) = 128) by (apply zlen_image; apply Hr).
      rewrite zlen_app, Lz, zlen_zeros_sub by lia.
      replace ((sector <=? (0 + 1) * sector + (i * 128 + 66)) && ((0 + 1) * sector + (i * 128 + 66) <? sector + (128 + (sector - 128)))) with true by lia.
      unfold nthd. rewrite znth_app2 by lia. rewrite Lz.
      destruct (znth (zeros (sector - 128)) _) as [v|] eqn:Ez; auto. apply znth_In in Ez. apply repeat_spec in Ez. auto.
    + intros i [<-|[]]. left. auto.
    + intros i [<-|[]]. exact Hr.
    + cbn. lia.
  - intros i [<-|[]]. reflexivity.
Qed.
