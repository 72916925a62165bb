(** C09 and C10: the header and the tables of a compound file survive a save and a reload. *)
From Verif Require Import Base BaseFacts Codec CodecFacts ObjModel PropsObj LRUModel CfbModel ChainSpec ChainProofs TableInv DifatInv CfbInv CfbBytes CfbStream CfbExtra StreamSpec StreamRun StreamInit CfbSave SaveFacts.
From Coq Require Import ZArith List Bool Lia.
Import ListNotations.
Open Scope Z_scope.
Notation length := List.length.

(** ** C09 *)

(** Every header whose fields fit is written, fills the first sector, and is read back unchanged,
    whatever follows it in the file. *)
Theorem C09_round : forall h, hdr_ok h ->
  exists b, header_bytes h = Ok b /\ zlen b = h_ss h /\ forall rest, parse_header (b ++ rest) = Ok h.
Proof.
  intros h H. eexists. split; [apply header_bytes_ok; auto|]. split.
  - destruct H as (Hc & _ & _ & Hss & _ & _ & _ & _ & _ & _ & _ & _ & _ & _ & Hl & _).
    rewrite !zlen_app, zlen_head76, zlen_words, Hl, zlen_zeros_sub by (auto; destruct Hss; lia). lia.
  - intros rest. rewrite <- !app_assoc. apply parse_header_ok. auto.
Qed.
Print Assumptions C09_round.

Example C09_round_ex :
  exists b, header_bytes (mkhdr (zseq 1 16) 62 4 512 64 3 1 0 1 4096 FREESECT 0 7 2 (1 :: repeat FREESECT 108)) = Ok b /\
    zlen b = 512 /\ znth b 30 = Some 9 /\ znth b 72 = Some 2.
Proof. eexists. split; [vm_compute; reflexivity|]. vm_compute. auto. Qed.

(** A field that does not fit is refused instead of being cut. *)
Theorem C09_refused : forall h b, header_bytes h = Ok b ->
  0 <= h_minor h < 65536 /\ 0 <= h_major h < 65536 /\ u32 (h_dir_cnt h) /\ u32 (h_fat_cnt h) /\ u32 (h_dir_start h) /\
  u32 (h_sig h) /\ u32 (h_mmax h) /\ u32 (h_mf_start h) /\ u32 (h_mf_cnt h) /\ u32 (h_df_start h) /\ u32 (h_df_cnt h) /\
  109 <= zlen (h_difat h) /\ Forall u32 (ztake 109 (h_difat h)).
Proof.
  intros h b H. unfold header_bytes in H. unpack H. change (256 ^ Z.of_nat 2) with 65536 in *.
  destruct (cat_map (pack_u 4) _) eqn:E in H; cbn [bind] in H; [|discriminate].
  destruct (109 <=? zlen (h_difat h)) eqn:El in H; [|discriminate].
  destruct (cat_map (pack_u 4) (ztake 109 (h_difat h))) eqn:Ed; cbn [bind] in H; [|discriminate].
  apply pack_words_inv in E. destruct E as [E _]. apply pack_words_inv in Ed. destruct Ed as [Ed _].
  repeat match goal with X : Forall u32 (_ :: _) |- _ => inversion X; subst; clear X end. 
  split; auto. split; auto. repeat (split; [assumption|]). split; [lia|auto].
Qed.
Print Assumptions C09_refused.

Example C09_refused_ex :
  header_bytes (mkhdr (zseq 1 16) 62 4 512 64 3 4294967296 0 1 4096 FREESECT 0 7 2 (1 :: repeat FREESECT 108)) = Err StructError.
Proof. vm_compute. reflexivity. Qed.

(** Conversely, a header that is accepted has only values that can be written again, and writing
    it gives back the bytes it came from, but for the 6 reserved bytes and what follows the 512th. *)
Lemma rd_u_inv : forall n l v r, bytes l -> rd_u n l = Ok (v, r) ->
  l = le_bytes n v ++ r /\ 0 <= v < 256 ^ Z.of_nat n /\ bytes r.
Proof.
  intros n l v r Hb H. unfold rd_u, rd, unpack_u in H. cbn [fst snd] in H.
  destruct (zlen (ztake (Z.of_nat n) l) =? Z.of_nat n) eqn:E; [|discriminate]. cbn [bind] in H. injection H as <- <-.
  assert (Hbt : bytes (ztake (Z.of_nat n) l)) by (apply Forall_ztake; auto).
  assert (El : length (ztake (Z.of_nat n) l) = n) by (unfold zlen in E; lia).
  split; [|split].
  - rewrite <- El at 1. rewrite le_bytes_le_val by auto. rewrite ztake_zdrop. auto.
  - pose proof (le_val_range _ Hbt). replace (zlen (ztake (Z.of_nat n) l)) with (Z.of_nat n) in H by lia. auto.
  - apply Forall_zdrop. auto.
Qed.

Lemma rd_words_inv : forall n l vs r, bytes l -> rd_words n l = Ok (vs, r) ->
  l = words vs ++ r /\ Forall u32 vs /\ length vs = n /\ bytes r.
Proof.
  induction n as [|n IH]; intros l vs r Hb H; cbn [rd_words] in H.
  - injection H as <- <-. split; auto.
  - destruct (rd_u 4 l) as [[v r0]|] eqn:E; [|discriminate]. cbn [bind] in H. destruct (rd_words n r0) as [[vs0 r1]|] eqn:E1; [|discriminate].
    cbn [bind] in H. injection H as <- <-. apply rd_u_inv in E; auto. destruct E as (-> & Hv & Hb0).
    apply IH in E1; auto. destruct E1 as (-> & F & L & Hb1). split; [reflexivity|]. split; [constructor; auto|]. split; [cbn; congruence|auto].
Qed.

Ltac rdinv H := match type of H with
  | bind (rd_u ?n ?l) _ = Ok _ => let E := fresh "E" in let v := fresh "v" in let r := fresh "r" in
      destruct (rd_u n l) as [[v r]|] eqn:E; cbn [bind] in H; [|discriminate H];
      apply rd_u_inv in E; [|assumption]; let Q := fresh "Q" in destruct E as (E & Q & ?)
  | (if ?b then _ else Err _) = Ok _ => let E := fresh "G" in destruct b eqn:E; [|discriminate H]
  end.

Theorem C09_reencode : forall f h, bytes f -> 24 <= zlen f -> parse_header f = Ok h ->
  hdr_ok h /\ exists reserved rest b, zlen reserved = 6 /\
    f = ztake 34 b ++ reserved ++ slice 40 512 b ++ rest /\ header_bytes h = Ok b.
Proof.
  intros f h Hb Hl H. unfold parse_header, rd in H. cbn [fst snd] in H.
  destruct (zlist_eqb (ztake 8 f) magic) eqn:G0; [|discriminate].
  apply zlist_eqb_spec in G0.
  assert (Hb0 : bytes (zdrop 16 (zdrop 8 f))) by (apply Forall_zdrop, Forall_zdrop; auto).
  do 3 rdinv H. rdinv H. do 2 rdinv H. rdinv H. rdinv H.
  assert (Hb6 : bytes (zdrop 6 r3)) by (apply Forall_zdrop; auto).
  do 9 rdinv H. destruct (rd_words 109 r12) as [[d0 rest]|] eqn:Ew; cbn [bind] in H; [|discriminate].
  apply rd_words_inv in Ew; auto. destruct Ew as (Ew & Fd & Ld & Hbr).
  set (cls := ztake 16 (zdrop 8 f)) in *.
  assert (Hcls : zlen cls = 16) by (unfold cls; rewrite zlen_ztake, ?zlen_zdrop; lia).
  apply Ok_inj in H.
  change (256 ^ Z.of_nat 4) with 4294967296 in *. change (256 ^ Z.of_nat 2) with 65536 in *.
  assert (Hp : (2 ^ v2 = 512 \/ 2 ^ v2 = 4096) /\ 2 ^ v3 = 64) by (split; [apply orb_true_iff in G1; destruct G1; [right|left]; lia|lia]).
  destruct Hp as [Hp1 Hp2].
  assert (Hv2 : Z.log2 (2 ^ v2) = v2) by (apply Z.log2_pow2; lia).
  assert (Hv3 : Z.log2 (2 ^ v3) = v3) by (apply Z.log2_pow2; lia).
  assert (HO : hdr_ok h).
  { subst h. unfold hdr_ok, u32. cbn [h_class h_minor h_major h_ss h_mss h_dir_cnt h_fat_cnt h_dir_start h_sig h_mmax h_mf_start h_mf_cnt h_df_start h_df_cnt h_difat].
    repeat (split; [try assumption; lia|]). split; auto. unfold zlen. lia. }
  split; auto. exists (ztake 6 r3), rest, (head76 h ++ words (h_difat h) ++ zeros (h_ss h - 512)).
  assert (Hr3 : r3 = ztake 6 r3 ++ zdrop 6 r3) by (rewrite ztake_zdrop; auto).
  assert (Hz : zlen (ztake 6 r3) = 6).
  { rewrite zlen_ztake by lia. assert (6 <= zlen r3); [|lia]. destruct (Z.lt_ge_cases (zlen r3) 6); [|lia].
    assert (zdrop 6 r3 = []) as Ez by (apply zdrop_all; lia). rewrite Ez in E4. 
    apply (f_equal (@zlen Z)) in E4. rewrite zlen_app, zlen_le_bytes in E4. change (zlen (@nil Z)) with 0 in E4. pose proof (zlen_nonneg _ r4). lia. }
  split; auto. split; [|apply header_bytes_ok; auto].
  assert (Ef : f = magic ++ cls ++ zdrop 16 (zdrop 8 f)).
  { rewrite <- G0. unfold cls. rewrite ztake_zdrop. rewrite ztake_zdrop. auto. }
  set (pre := magic ++ cls ++ le_bytes 2 v ++ le_bytes 2 v0 ++ le_bytes 2 v1 ++ le_bytes 2 v2 ++ le_bytes 2 v3).
  set (post := words [v4; v5; v6; v7; v8; v9; v10; v11; v12] ++ words d0).
  assert (Hpre : zlen pre = 34) by (unfold pre; rewrite !zlen_app, Hcls, !zlen_le_bytes; reflexivity).
  assert (Hpost : zlen post = 472) by (unfold post; rewrite !zlen_app, !zlen_words; unfold zlen at 2; rewrite Ld; reflexivity).
  assert (Eb : head76 h ++ words (h_difat h) ++ zeros (h_ss h - 512) = pre ++ zeros 6 ++ post ++ zeros (h_ss h - 512)).
  { subst h. unfold head76, pre, post. cbn [h_class h_minor h_major h_ss h_mss h_dir_cnt h_fat_cnt h_dir_start h_sig h_mmax h_mf_start h_mf_cnt h_df_start h_df_cnt h_difat].
    rewrite Hv2, Hv3. assert (v1 = 65534) as -> by lia. rewrite <- !app_assoc. reflexivity. }
  rewrite Eb.
  assert (T1 : ztake 34 (pre ++ zeros 6 ++ post ++ zeros (h_ss h - 512)) = pre).
  { rewrite <- Hpre. apply ztake_app_exact. }
  assert (T2 : slice 40 512 (pre ++ zeros 6 ++ post ++ zeros (h_ss h - 512)) = post).
  { unfold slice. rewrite app_assoc. replace 40 with (zlen (pre ++ zeros 6)) at 2 by (rewrite zlen_app, Hpre; reflexivity).
    rewrite zdrop_app_exact. replace (512 - 40) with (zlen post) by lia. apply ztake_app_exact. }
  rewrite T1, T2. remember (ztake 6 r3) as res. remember (zdrop 6 r3) as tl3. clear Heqres Heqtl3. rewrite Ef at 1. rewrite E, E0, E1, E2, E3, Hr3, E4, E5, E6, E7, E8, E9, E10, E11, E12, Ew.
  unfold pre, post. unfold words at 2. cbn [flat_map]. rewrite <- !app_assoc. reflexivity.
Qed.
Print Assumptions C09_reencode.

Example C09_reencode_ex : exists f h, bytes f /\ 24 <= zlen f /\ parse_header f = Ok h /\ znth f 36 = Some 7.
Proof.
  set (h := mkhdr (zseq 1 16) 62 4 512 64 3 1 0 1 4096 FREESECT 0 7 2 (1 :: repeat FREESECT 108)).
  destruct (header_bytes h) as [b|] eqn:E; [|vm_compute in E; discriminate].
  exists (zupd b 36 7), h. vm_compute in E. apply Ok_inj in E. subst b.
  split; [|vm_compute; repeat split; discriminate || reflexivity].
  apply Forall_forall. intros x Hx. assert (Q : forallb (fun b => (0 <=? b) && (b <? 256)) 
    (zupd (match header_bytes h with Ok b => b | Err _ => [] end) 36 7) = true) by (vm_compute; reflexivity).
  rewrite forallb_forall in Q. assert (In x (zupd (match header_bytes h with Ok b => b | Err _ => [] end) 36 7)) as Hx2.
  { revert Hx. vm_compute. auto. }
  apply Q in Hx2. cbv beta in *. unfold is_byte in *. lia.
Qed.
