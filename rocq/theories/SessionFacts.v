(** Closing and reopening refine "nothing changes". *)
From Verif Require Import Base BaseFacts Codec CodecFacts ObjModel DirEntryModel PropsDirEntry LRUModel CfbModel ChainSpec ChainProofs TableInv DifatInv CfbInv CfbBytes CfbStream CfbExtra CfbSave SaveFacts SaveInv CloseFacts StreamSpec StreamRun Session.
From Coq Require Import ZArith List Bool Lia.
Import ListNotations.
Open Scope Z_scope.
Notation length := List.length.

(** ** Images of entries *)
Definition ent_ok (e : entry) : Prop := (forall v, e_sid e = Some v -> 0 <= v < 4294967295) /\ 0 <= e_size e < 2 ^ 63.

Lemma zlen_image : forall r e, zlen r = 116 -> zlen (image r e) = 128.
Proof. intros r e H. unfold image. rewrite !zlen_app, !zlen_le_bytes. lia. Qed.

Lemma image_rest : forall r e, zlen r = 116 -> ztake 116 (image r e) = r.
Proof. intros r e H. unfold image. rewrite <- H. apply ztake_app_exact. Qed.

Lemma image_sid : forall r e, zlen r = 116 -> ent_ok e -> decode_sid (unpack_from 4 (image r e) 116) = e_sid e.
Proof.
  intros r e H [Hs _]. unfold unpack_from, slice, image.
  assert (Ez : forall x, zdrop 116 (r ++ x) = x) by (intros x; rewrite <- H; apply zdrop_app_exact). rewrite Ez.
  replace (116 + 4 - 116) with (zlen (le_bytes 4 (encode_sid (e_sid e)))) by (rewrite zlen_le_bytes; lia). rewrite ztake_app_exact.
  unfold encode_sid, decode_sid. destruct (e_sid e) as [v|].
  - specialize (Hs v eq_refl). rewrite le_val_le_bytes. change (256 ^ Z.of_nat 4) with 4294967296. rewrite Z.mod_small by lia.
    replace (v =? 4294967295) with false by lia. auto.
  - rewrite le_val_le_bytes. reflexivity.
Qed.

Lemma image_size : forall r e, zlen r = 116 -> ent_ok e -> unpack_from 8 (image r e) 120 = e_size e.
Proof.
  intros r e H [_ Hs]. unfold unpack_from, slice, image. rewrite app_assoc.
  assert (Ez : forall x, zdrop 120 ((r ++ le_bytes 4 (encode_sid (e_sid e))) ++ x) = x).
  { intros x. replace 120 with (zlen (r ++ le_bytes 4 (encode_sid (e_sid e)))) by (rewrite zlen_app, zlen_le_bytes; lia). apply zdrop_app_exact. }
  rewrite Ez.
  rewrite ztake_all by (rewrite zlen_le_bytes; lia). rewrite le_val_le_bytes. change (256 ^ Z.of_nat 8) with (2 ^ 64). apply Z.mod_small. lia.
Qed.

Lemma image_type : forall r e, zlen r = 116 -> byte_at (image r e) 66 = byte_at r 66.
Proof. intros r e H. unfold byte_at, image. rewrite znth_app1 by lia. reflexivity. Qed.

Definition rest_okP (r : list Z) : Prop := zlen r = 116 /\ bytes r /\ byte_at r 66 <> 0.
Lemma rest_ok_P : forall r, rest_ok r = true <-> rest_okP r.
Proof.
  intros r. unfold rest_ok, rest_okP. rewrite !andb_true_iff, negb_true_iff. split.
  - intros ((H1 & H2) & H3). split; [lia|]. split; [|lia]. apply Forall_forall. rewrite forallb_forall in H2. intros x Hx. apply H2 in Hx. unfold is_byte. lia.
  - intros (H1 & H2 & H3). split; [split; [lia|]|lia]. apply forallb_forall. intros x Hx. pose proof (proj1 (Forall_forall _ _) H2 x Hx) as Q. unfold is_byte in Q. lia.
Qed.

(** ** Reading a slot *)
Lemma slot_bytes_in : forall f ssz dc i, 128 <= ssz -> ssz mod 128 = 0 -> (forall x, In x dc -> 0 <= x) -> in_dir ssz dc i ->
  slot_bytes f ssz dc i = Some (slot f ssz dc i).
Proof.
  intros f ssz dc i H1 H2 Hr Hi. destruct (slot_index _ _ _ H1 H2 Hi) as (A & B & C). unfold slot_bytes.
  replace (i <? 0) with false by (unfold in_dir in Hi; lia). destruct (znth_in_range _ dc _ A) as [sid E]. rewrite E.
  assert (Hs : 0 <= sid) by (apply Hr; eapply znth_In; eauto).
  rewrite padded_read by nia. unfold slot, spos. unfold nthd. rewrite E. reflexivity.
Qed.

Lemma slot_bytes_out : forall f ssz dc i, 128 <= ssz -> ssz mod 128 = 0 -> ~ in_dir ssz dc i -> slot_bytes f ssz dc i = None.
Proof.
  intros f ssz dc i H1 H2 Hi. unfold slot_bytes. destruct (i <? 0) eqn:E; auto.
  assert (E2 : ssz = ssz / 128 * 128) by (pose proof (Z.div_mod ssz 128 ltac:(lia)); lia).
  destruct (znth dc (i * 128 / ssz)) as [x|] eqn:Ex; auto. exfalso. apply Hi. apply znth_Some in Ex. split; [lia|].
  rewrite E2 in Ex. rewrite Z.div_mul_cancel_r in Ex by lia. destruct Ex as [_ Ex].
  pose proof (Z.div_mod i (ssz / 128) ltac:(lia)). pose proof (Z.mod_pos_bound i (ssz / 128) ltac:(lia)). nia.
Qed.

(** ** The file and the directory *)
Record J (c : cfile) (live : list Z) : Prop := {
  j_img : forall i, In i (0 :: live) -> ~ In i (c_mod c) -> slot (file (c_s c)) (ss (c_s c)) (dir_chain (c_s c)) i = img_of c i;
  j_free : forall i, in_dir (ss (c_s c)) (dir_chain (c_s c)) i -> ~ In i (0 :: live) -> ~ In i (dir_free (c_s c)) ->
    byte_at (slot (file (c_s c)) (ss (c_s c)) (dir_chain (c_s c)) i) 66 = 0;
  j_mod : forall i, In i (c_mod c) -> In i (0 :: live);
  j_rest : forall i, In i (0 :: live) -> rest_okP (c_rest c i);
  j_root : 0 <= e_size (ents (c_s c) 0) < 2 ^ 63 }.

Lemma Inv_ent_ok : forall s ch hw, Inv s ch hw -> Ext s -> 0 <= e_size (ents s 0) < 2 ^ 63 -> forall j, ent_ok (ents s j).
Proof.
  intros s ch hw [[H Hc] HS] X Hr j.
  assert (Q : forall tbl st l, zlen tbl <= MAXREGSECT -> linked tbl st l -> forall v, st = Some v -> 0 <= v < 4294967295).
  { intros tbl st l HL L v ->. destruct L as [Sp L]. inversion L as [Eq|b b1 l1 Hne Hn Hq]; [rewrite <- Eq in Sp; discriminate|].
    subst. apply znth_Some in Hn. unfold MAXREGSECT in HL. lia. }
  destruct (Z.eq_dec j 0) as [->|Hj].
  - split; auto. intros v Hv. eapply Q; [apply (ti_len _ _ _ (i_ft _ _ _ _ _ H))|apply (ti_link _ _ _ (i_ft _ _ _ _ _ H) OCont); split; discriminate|exact Hv].
  - pose proof (HS j Hj) as [S1 _]. pose proof (ti_len _ _ _ (i_mt _ _ _ _ _ H)) as L1. pose proof (ti_len _ _ _ (i_ft _ _ _ _ _ H)) as L2.
    pose proof (x_ss _ X) as Xs. pose proof (x_mss _ X) as Xm. unfold cap_of, sec in S1.
    assert (Hz : zlen (ch j) <= MAXREGSECT).
    { destruct (kind s j) eqn:Ek.
      - pose proof (ti_nodup _ _ _ (i_mt _ _ _ _ _ H) (OStr j)) as ND. cbn in ND. rewrite mini_kind, Ek in ND by auto.
        assert (zlen (ch j) <= zlen (minifat s)); [|lia]. apply NoDup_range_le; auto; [apply zlen_nonneg|].
        intros x Hx. apply (TInv_range _ _ _ (i_mt _ _ _ _ _ H) (OStr j)). cbn. rewrite mini_kind, Ek by auto. auto.
      - pose proof (ti_nodup _ _ _ (i_ft _ _ _ _ _ H) (OStr j)) as ND. cbn in ND. rewrite reg_kind, Ek in ND by auto.
        assert (zlen (ch j) <= zlen (fat s)); [|lia]. apply NoDup_range_le; auto; [apply zlen_nonneg|].
        intros x Hx. apply (TInv_range _ _ _ (i_ft _ _ _ _ _ H) (OStr j)). cbn. rewrite reg_kind, Ek by auto. auto. }
    split.
    + intros v Hv. destruct (kind s j) eqn:Ek.
      * pose proof (ti_link _ _ _ (i_mt _ _ _ _ _ H) (OStr j) ltac:(split; discriminate)) as L. cbn in L. rewrite mini_kind, Ek in L by auto. eapply Q; [exact L1|exact L|exact Hv].
      * pose proof (ti_link _ _ _ (i_ft _ _ _ _ _ H) (OStr j) ltac:(split; discriminate)) as L. cbn in L. rewrite reg_kind, Ek in L by auto. eapply Q; [exact L2|exact L|exact Hv].
    + unfold MAXREGSECT in Hz. pose proof (zlen_nonneg _ (ch j)). split; [lia|].
      assert (zlen (ch j) * (if kind s j then mss s else ss s) <= 4294967290 * 4096); [|lia].
      destruct (kind s j); rewrite ?Xm; [nia|]. destruct Xs as [-> | ->]; nia.
Qed.

(** what the loaded entries are *)
Lemma load_img : forall f ssz dc i r e, 128 <= ssz -> ssz mod 128 = 0 -> (forall x, In x dc -> 0 <= x) -> in_dir ssz dc i ->
  slot f ssz dc i = image r e -> rest_okP r -> ent_ok e -> load_entry f ssz dc i = e /\ load_rest f ssz dc i = r.
Proof.
  intros f ssz dc i r e H1 H2 Hr Hi E (R1 & R2 & R3) He. unfold load_entry, load_rest. rewrite slot_bytes_in, E by auto. split.
  - rewrite image_type by auto. replace (byte_at r 66 =? 0) with false by lia. rewrite image_sid, image_size by auto. destruct e; reflexivity.
  - apply image_rest; auto.
Qed.
Lemma load_blank : forall f ssz dc i, 128 <= ssz -> ssz mod 128 = 0 -> (forall x, In x dc -> 0 <= x) ->
  (in_dir ssz dc i -> byte_at (slot f ssz dc i) 66 = 0) -> load_entry f ssz dc i = mkent None 0.
Proof.
  intros f ssz dc i H1 H2 Hr Hi. unfold load_entry.
  assert (D : in_dir ssz dc i \/ ~ in_dir ssz dc i) by (unfold in_dir; lia). destruct D as [D|D].
  - rewrite slot_bytes_in by auto. rewrite (Hi D). reflexivity.
  - rewrite slot_bytes_out by auto. reflexivity.
Qed.

(** ** Close and reopen *)
Lemma fbyte_ftruncate : forall f pos a, 0 <= a < pos -> fbyte (ftruncate f pos) a = fbyte f a.
Proof.
  intros f pos a Ha. unfold ftruncate, fbyte. destruct (Z.lt_ge_cases a (zlen (ztake pos f))) as [L|L].
  - rewrite znth_app1 by lia. rewrite znth_ztake by lia. replace (a <? pos) with true by lia. auto.
  - rewrite znth_app2 by lia. pose proof (zlen_nonneg _ f). rewrite zlen_ztake in L by lia.
    assert (zlen f <= a) by lia. replace (znth f a) with (@None Z) by (symmetry; apply znth_None; lia).
    destruct (znth (zeros (pos - zlen f)) (a - zlen (ztake pos f))) as [v|] eqn:E; auto. apply znth_In in E. apply repeat_spec in E. auto.
Qed.
Lemma zlen_ftruncate : forall f pos, 0 <= pos -> zlen (ftruncate f pos) = pos.
Proof. intros f pos H. unfold ftruncate. pose proof (zlen_nonneg _ f). rewrite zlen_app, zlen_ztake, zlen_zeros_max by lia. lia. Qed.

Record Saved (c c' : cfile) (s1 : cfb) (m n : Z) : Prop := {
  sv_mini : close_mini (c_s c) = Ok s1;
  sv_cut : Cut (c_s c) s1 m n;
  sv_rel : Reload (set_mini_chain s1 (ztake m (mini_chain (c_s c)))) (c_s c');
  sv_dcnt : dir_cnt (c_s c') = zlen (dir_chain (c_s c));
  sv_dfree : dir_free (c_s c') = [];
  sv_hdr : c_class c' = c_class c /\ c_minor c' = c_minor c /\ c_major c' = c_major c /\ c_dstart c' = c_dstart c /\ c_sig c' = c_sig c;
  sv_mod : c_mod c' = [] }.

Lemma set_mini_same : forall s, set_mini_chain s (mini_chain s) = s.
Proof. destruct s; reflexivity. Qed.

Theorem close_reopen : forall c live ch hw cap, Inv (c_s c) ch hw -> DInv (c_s c) live -> Ext (c_s c) -> HdrOk c -> J c live ->
  exists f c' s1 m n, close c = Ok f /\ open_file f cap = Ok c' /\ Saved c c' s1 m n /\
    Inv (c_s c') ch n /\ DInv (c_s c') live /\ Ext (c_s c') /\ HdrOk c' /\ J c' live /\
    (forall e, e <> 0 -> content (c_s c') ch e = content (c_s c) ch e) /\
    (forall i, In i (0 :: live) -> c_rest c' i = c_rest c i).
Proof.
  intros c live ch hw cap HI HD X HO HJ. set (s := c_s c) in *.
  destruct (close_mini_ok s ch hw HI X) as (s1 & m & n & E1 & CU & H1). unfold close. fold s. rewrite E1. cbn [bind].
  set (mods := match e_sid (ents s 0) with None => c_mod c | Some _ => if existsb (Z.eqb 0) (c_mod c) then c_mod c else 0 :: c_mod c end).
  set (c1 := with_mod (with_s c s1) mods).
  set (t1 := set_mini_chain s1 (ztake m (mini_chain s))) in *.
  pose proof (u_fields _ _ _ _ CU) as (ft & fr & en & Es1).
  assert (X1 : Ext t1).
  { destruct X. unfold t1. rewrite Es1. constructor; auto. cbn. destruct x_cont as [E|E]; [left; rewrite E; destruct m; reflexivity|right; auto]. }
  assert (HO1 : HdrOk (with_s c1 t1)).
  { destruct HO. constructor; auto. cbn. unfold t1. rewrite Es1. cbn. auto. }
  destruct (i_r _ _ _ _ _ H1) as (row0 & rows & fs & k & HR).
  destruct (Inv_Tables (with_s c1 t1) ch hw row0 rows fs k H1 X1 HO1 HR) as [TB Efs].
  assert (TB1 : Tables c1 row0 rows (minifat_chain s1)) by (destruct TB; constructor; auto).
  clear TB. destruct (write_tables_ok _ _ _ _ TB1) as (f & Ef & SO & ST & L0 & LE). rewrite Ef. cbn [bind].
  change (c_s c1) with s1 in SO, ST, L0, LE.
  pose proof HD as (D1 & D2 & D3 & D4 & D5).
  assert (Ess : ss s1 = ss s) by (rewrite Es1; reflexivity).
  assert (Edc : dir_chain s1 = dir_chain s) by (rewrite Es1; reflexivity).
  assert (Efile : file s1 = file s) by (rewrite Es1; reflexivity).
  assert (Edf : dir_free s1 = dir_free s) by (rewrite Es1; reflexivity).
  assert (Ent : forall i, In i (0 :: live) -> ent_ok (ents s1 i)).
  { intros i Hi. destruct HJ. pose proof (Inv_ent_ok _ _ _ HI X j_root0) as Q. destruct (Z.eq_dec i 0) as [->|Ni].
    - split; [intros v Hv; apply (proj1 (Q 0)); rewrite <- (u_rsid _ _ _ _ CU); auto|]. apply (u_rsize _ _ _ _ CU). auto.
    - rewrite (u_ents _ _ _ _ CU) by auto. apply Q. }
  pose proof (i_ft _ _ _ _ _ H1) as HT1.
  assert (NDd : NoDup (dir_chain s)). { pose proof (ti_nodup _ _ _ HT1 ODir) as Q. cbn in Q. rewrite Edc in Q. exact Q. }
  assert (Hdr : forall x, In x (dir_chain s) -> 0 <= x < zlen (fat s1)).
  { intros x Hx. apply (TInv_range _ _ _ HT1 ODir). cbn. rewrite Edc. auto. }
  assert (Hmods : forall i, In i mods -> In i (0 :: live)).
  { intros i Hi. unfold mods in Hi. destruct (e_sid (ents s 0)); [|apply (j_mod _ _ HJ); auto].
    destruct (existsb (Z.eqb 0) (c_mod c)); [apply (j_mod _ _ HJ); auto|]. destruct Hi as [<-|Hi]; [left; auto|apply (j_mod _ _ HJ); auto]. }
  assert (Hid : forall i, In i (0 :: live) -> in_dir (ss s) (dir_chain s) i).
  { intros i Hi. unfold in_dir. apply D4. apply in_or_app. auto. }
  unfold write_dir_entries, flush. cbn [c_s with_s].
  (* the modified entries *)
  set (s2 := set_file s1 f). set (c2 := with_s c1 s2).
  assert (Hds : forall x, In x (dir_chain s2) -> 0 <= x) by (intros x Hx; change (dir_chain s2) with (dir_chain s1) in Hx; rewrite Edc in Hx; apply Hdr in Hx; lia).
  destruct (write_slots_ok (sort_ids (c_mod c2)) s2 (img_of c2)) as (s3 & E3 & F3 & _ & L3 & S3 & O3 & B3).
  { change (ss s2) with (ss s1). lia. }
  { change (ss s2) with (ss s1). congruence. }
  { change (dir_chain s2) with (dir_chain s1). congruence. }
  { exact Hds. }
  { intros i Hi. apply (proj1 (In_sort _ _)) in Hi. change (c_mod c2) with mods in Hi. change (ss s2) with (ss s1). change (dir_chain s2) with (dir_chain s1).
    rewrite Ess, Edc. split; [apply Hid, Hmods; auto|]. apply zlen_image. apply (j_rest _ _ HJ). apply Hmods. auto. }
  rewrite E3. cbn [bind c_s with_s with_mod].
  destruct (FileOnly_fields _ _ F3) as [Ess3 Edc3]. change (ss s2) with (ss s1) in *. change (dir_chain s2) with (dir_chain s1) in *. rewrite Ess, Edc in *.
  assert (Edf3 : dir_free s3 = dir_free s) by (rewrite F3; cbn; auto).
  (* the free ones *)
  destruct (write_slots_ok (sort_ids (dir_free s3)) s3 (fun _ => zeros 128)) as (s4 & E4 & F4 & _ & L4 & S4 & O4 & B4); rewrite ?Ess3, ?Edc3; auto.
  { intros i Hi. apply (proj1 (In_sort _ _)) in Hi. rewrite Edf3 in Hi. split; [apply D4; apply in_or_app; auto|reflexivity]. }
  rewrite E4. cbn [bind c_s with_s with_mod]. destruct (FileOnly_fields _ _ F4) as [Ess4 Edc4]. rewrite Ess3, Edc3 in *.
  assert (Efat : fat s4 = fat s1) by (rewrite F4, F3; reflexivity). rewrite Efat, Ess4.
  change (file s2) with f in *. rewrite Edf3 in *.
  (* the end of the file *)
  pose proof (i_dir _ _ _ _ _ H1) as Hdne. change (dir_chain t1) with (dir_chain s1) in Hdne. rewrite Edc in Hdne.
  destruct (dir_chain s) as [|d0 drest] eqn:Edl; [congruence|]. rewrite <- Edl in *.
  assert (Hd0 : In d0 (dir_chain s)) by (rewrite Edl; left; auto).
  assert (Hfne : fat s1 <> []). { intros E. specialize (Hdr d0 Hd0). rewrite E in Hdr. change (zlen (@nil Z)) with 0 in Hdr. lia. }
  destruct (used_end_exists _ Hfne) as (tf & nf & Etf & Unf & Hnf & Rnf). rewrite Etf. cbn [bind].
  assert (Hused : forall o x, chain_owner o -> In x (fowned t1 ch [] o) -> 0 <= x < nf).
  { intros o x C Hx. apply (owned_below _ _ _ nf o x HT1); auto. }
  assert (Hmarks : forall x, In x (table_sectors s1 rows (minifat_chain s1)) -> 0 <= x < nf /\ ~ In x (dir_chain s)).
  { intros x Hx. destruct HR as (_ & _ & _ & _ & _ & _ & R7 & _ & _ & _ & R11).
    assert (Q : forall v, v = FATSECT \/ v = DIFSECT -> znth (fat s1) x = Some v -> 0 <= x < nf /\ ~ In x (dir_chain s)).
    { intros v Hv Hz. pose proof (znth_Some _ _ _ _ Hz) as Hr. split.
      - split; [lia|]. destruct (Z.lt_ge_cases x nf); auto. pose proof (used_end_free _ _ x Unf ltac:(lia)) as Q. rewrite Q in Hz. destruct Hv; subst; discriminate.
      - intros Hd. assert (Hd' : In x (fowned t1 ch [] ODir)) by (cbn; rewrite Edc; auto). destruct (owned_nomark _ _ _ HT1 ODir x Hd') as [N1 N2].
        destruct Hv; subst; [apply N1|apply N2]; exact Hz. }
    unfold table_sectors in Hx. rewrite !in_app_iff in Hx. destruct Hx as [Hx|[Hx|Hx]].
    - apply (Q FATSECT); auto. apply (proj1 (R7 x)). change (fat_sectors (difat s1)) with (fat_sectors (difat (c_s (with_s c1 t1)))) in Hx. rewrite Efs in Hx. auto.
    - apply (Q DIFSECT); auto. apply (proj1 (R11 x)). exact Hx.
    - split; [apply (Hused OMFat); auto; split; discriminate|]. intros Hd.
      assert (Hd' : In x (fowned t1 ch [] ODir)) by (cbn; rewrite Edc; auto).
      pose proof (ti_disj _ _ _ HT1 OMFat ODir x Hx Hd'). discriminate. }
  assert (Hd_nf : forall x, In x (dir_chain s) -> 0 <= x < nf) by (intros x Hx; apply (Hused ODir); [split; discriminate|]; cbn; rewrite Edc; auto).
  assert (Hpos : (zlen (fat s1) - tf + 1) * ss s = (nf + 1) * ss s).
  { destruct Hnf as [[E _]|[_ E]]; [|rewrite E; auto]. specialize (Hd_nf d0 Hd0). lia. }
  rewrite Hpos. set (pos := (nf + 1) * ss s). set (g := ftruncate (file s4) pos).
  assert (Hss : 0 < ss s) by lia.
  assert (Hpos0 : 0 <= pos) by (unfold pos; nia).
  assert (SB : forall x k, -1 <= x < nf -> 0 <= k < ss s -> fbyte g ((x + 1) * ss s + k) = fbyte (file s4) ((x + 1) * ss s + k)).
  { intros x k0 Hx Hk. apply fbyte_ftruncate. unfold pos. nia. }
  assert (SD : same_out (ss s) (fun x => In x (dir_chain s) \/ nf <= x) f g).
  { intros x k0 Hn Hx Hk. rewrite SB by lia. rewrite B4, B3 by (auto; intro; apply Hn; auto). auto. }
  assert (Lg : zlen g = pos) by (apply zlen_ftruncate; auto).
  assert (STg : Stored g c1 row0 rows (minifat_chain s1)).
  { eapply Stored_same; [exact TB1| | | |exact ST].
    - change (ss (c_s c1)) with (ss s1). rewrite Ess. exact SD.
    - intros [Q|Q]; [apply Hdr in Q|]; lia.
    - change (c_s c1) with s1. intros x Hx. apply Hmarks in Hx. intros [Q|Q]; [tauto|lia]. }
  assert (Eread : read_tables g = Ok (mktab (header_of c1) (difat s1) (fat s1) (free_from 0 (fat s1)) (zlen (fat_sectors (difat s1)))
     (minifat_chain s1) (minifat s1) (free_from 0 (minifat s1)))).
  { apply (read_tables_ok c1 row0 rows); auto; change (c_s c1) with s1; rewrite Ess, Lg; unfold pos; [nia|].
    intros x Hx. apply Hmarks in Hx. nia. }
  (* every slot of g *)
  assert (SLg : forall i, in_dir (ss s) (dir_chain s) i -> slot g (ss s) (dir_chain s) i = slot (file s4) (ss s) (dir_chain s) i).
  { intros i Hi. apply slot_ext. intros k0 Hk. destruct (spos_sector _ _ _ _ D1 D2 Hi Hk) as (x & r & Hx & Hr & Ep). rewrite Ep. apply SB; auto.
    apply Hd_nf in Hx. lia. }
  assert (SL0 : forall i, in_dir (ss s) (dir_chain s) i -> slot f (ss s) (dir_chain s) i = slot (file s) (ss s) (dir_chain s) i).
  { intros i Hi. apply slot_ext. intros k0 Hk. destruct (spos_sector _ _ _ _ D1 D2 Hi Hk) as (x & r & Hx & Hr & Ep). rewrite Ep. rewrite <- Efile.
    rewrite ?Ess in SO. apply SO; auto; [|apply Hd_nf in Hx; lia]. intros [Q|Q]; [apply Hd_nf in Hx; lia|]. apply Hmarks in Q. tauto. }
  assert (Hlf : forall i, In i (0 :: live) -> ~ In i (dir_free s)).
  { intros i Hi Hf. apply NoDup_app_iff in D3. destruct D3 as (_ & _ & D3). apply (D3 i); auto. }
  assert (IMG : forall i, In i (0 :: live) -> slot g (ss s) (dir_chain s) i = image (c_rest c i) (ents s1 i)).
  { intros i Hi. rewrite SLg by auto. rewrite O4 by (auto; rewrite In_sort; auto).
    destruct (in_dec Z.eq_dec i mods) as [Hm|Hm].
    - rewrite S3 by (rewrite In_sort; exact Hm). reflexivity.
    - rewrite O3 by (auto; rewrite In_sort; exact Hm). rewrite SL0 by auto.
      assert (Hnc : ~ In i (c_mod c)). { intros Q. apply Hm. unfold mods. destruct (e_sid (ents s 0)); auto. destruct (existsb (Z.eqb 0) (c_mod c)); auto. right; auto. }
      rewrite (j_img _ _ HJ i Hi Hnc : slot (file s) (ss s) (dir_chain s) i = img_of c i). unfold img_of. fold s. f_equal.
      destruct (Z.eq_dec i 0) as [->|Ni]; [|symmetry; apply (u_ents _ _ _ _ CU); auto].
      destruct (e_sid (ents s 0)) as [b|] eqn:Esid; [|rewrite (u_none _ _ _ _ CU Esid); auto].
      exfalso. apply Hm. unfold mods. destruct (existsb (Z.eqb 0) (c_mod c)) eqn:Ex; [|left; auto].
      exfalso. apply Hnc. apply existsb_exists in Ex. destruct Ex as (z & Hz & Ez). apply Z.eqb_eq in Ez. subst z. auto. }
  assert (BLK : forall i, in_dir (ss s) (dir_chain s) i -> ~ In i (0 :: live) -> byte_at (slot g (ss s) (dir_chain s) i) 66 = 0).
  { intros i Hi Hn. rewrite SLg by auto. destruct (in_dec Z.eq_dec i (dir_free s)) as [Hf|Hf].
    - rewrite S4 by (rewrite In_sort; auto). reflexivity.
    - rewrite O4 by (auto; rewrite In_sort; auto). rewrite O3 by (auto; rewrite In_sort; intros Q; apply Hn, Hmods; exact Q).
      rewrite SL0 by auto. apply (j_free _ _ HJ); auto. }
  (* opening *)
  assert (Edir : get_fat_chain (fat s1) (Some (c_dstart c)) = Ok (dir_chain s)).
  { pose proof (ti_link _ _ _ HT1 ODir ltac:(split; discriminate)) as L. cbn [fowned fstart] in L. change (dir_chain t1) with (dir_chain s1) in L.
    pose proof (ho_start _ HO) as Hs. fold s in Hs. rewrite Edc in L. rewrite Hs in L. apply (linked_get _ _ _ L). }
  set (en' := load_entry g (ss s) (dir_chain s)).
  assert (Hds' : forall x, In x (dir_chain s) -> 0 <= x) by (intros x Hx; apply Hdr in Hx; lia).
  assert (Hen : forall j, en' j = ents s1 j).
  { intros j. unfold en'. destruct (in_dec Z.eq_dec j (0 :: live)) as [Hj|Hj].
    - apply (load_img g (ss s) (dir_chain s) j (c_rest c j)); auto. apply (j_rest _ _ HJ); auto.
    - rewrite load_blank; auto. assert (j <> 0) by (intros ->; apply Hj; left; auto). rewrite (u_ents _ _ _ _ CU) by auto. symmetry. apply D5. auto. }
  assert (Emini : (if minifat_cnt s1 =? 0 then Ok [] else get_fat_chain (fat s1) (e_sid (en' 0))) = Ok (mini_chain t1)).
  { pose proof (ti_link _ _ _ HT1 OCont ltac:(split; discriminate)) as L. cbn [fowned fstart] in L.
    pose proof (i_mfc _ _ _ _ _ H1) as Q. change (minifat_cnt t1) with (minifat_cnt s1) in Q. change (minifat_chain t1) with (minifat_chain s1) in Q.
    destruct (minifat_cnt s1 =? 0) eqn:E0.
    - pose proof (x_mlen _ X1) as Q1. change (minifat_chain t1) with (minifat_chain s1) in Q1. change (minifat t1) with (minifat s1) in Q1.
      replace (zlen (minifat_chain s1)) with 0 in Q1 by lia.
      destruct (x_cont _ X1) as [E|E]; [rewrite E; auto|]. exfalso. apply E. apply zlen_zero_iff. exact Q1.
    - rewrite Hen. apply (linked_get _ _ _ L). }
  set (sx := mkcfb (ss s) (mss s1) (mmax s1) g (fat s1) (free_from 0 (fat s1)) (difat s1) (difat_start s1) (difat_cnt s1) (zlen (fat_sectors (difat s1)))
    (minifat s1) (free_from 0 (minifat s1)) (minifat_start s1) (minifat_cnt s1) (minifat_chain s1) (mini_chain t1) (dir_chain s) (zlen (dir_chain s)) [] cap [] en').
  destruct (read_sector_ok sx d0) as (s5 & E5 & CO5 & HC5).
  { intros k0 d Hk. destruct Hk. }
  { cbn. lia. }
  { specialize (Hdr d0 Hd0). lia. }
  assert (EO : open_file g cap = Ok (mkcf s5 (c_class c) (c_minor c) (c_major c) (c_dstart c) (c_sig c) (load_rest g (ss s) (dir_chain s)) [])).
  { unfold open_file. rewrite Eread. cbn [bind t_hdr t_difat t_fat t_ffree t_fat_cnt t_mchain t_minifat t_mfree].
    cbn [header_of h_class h_minor h_major h_ss h_mss h_dir_cnt h_fat_cnt h_dir_start h_sig h_mmax h_mf_start h_mf_cnt h_df_start h_df_cnt h_difat].
    change (c_s c1) with s1. change (c_dstart c1) with (c_dstart c). rewrite Edir. cbn [bind]. rewrite Ess. fold en'.
    rewrite Emini. cbn [bind]. fold sx. rewrite Edl at 1. rewrite E5. reflexivity. }
  exists g, (mkcf s5 (c_class c) (c_minor c) (c_major c) (c_dstart c) (c_sig c) (load_rest g (ss s) (dir_chain s)) []), s1, m, n.
  split; [reflexivity|]. split; [exact EO|].
  assert (RL : Reload t1 s5).
  { rewrite CO5. unfold sx. constructor; try reflexivity.
    - cbn. symmetry. exact Ess.
    - cbn. destruct HR as (_ & _ & _ & _ & _ & _ & _ & R8 & _). change (fat_sectors (difat s1)) with (fat_sectors (difat (c_s (with_s c1 t1)))).
      rewrite Efs, R8. reflexivity.
    - cbn. symmetry. exact Edc.
    - cbn. intros j. apply Hen.
    - rewrite CO5 in HC5. exact HC5. }
  split.
  { constructor; auto.
    - cbn. rewrite CO5. reflexivity.
    - cbn. rewrite CO5. reflexivity.
    }
  cbn [c_s].
  assert (I5 : Inv0 s5 ch [] [] n).
  { apply (Inv0_reload t1 s5 ch hw n H1 RL).
    - change (minifat t1) with (minifat s1). replace (minifat s1) with (minifat s) by (rewrite Es1; reflexivity). apply (u_n _ _ _ _ CU).
    - change (minifat t1) with (minifat s1). replace (minifat s1) with (minifat s) by (rewrite Es1; reflexivity). apply (u_range _ _ _ _ CU). }
  assert (Em5 : mini_chain s5 = ztake m (mini_chain s)) by (rewrite (r_cont _ _ RL); reflexivity).
  assert (Ess5 : ss s5 = ss s) by (rewrite (r_ss _ _ RL); exact Ess).
  assert (Ems5 : mss s5 = mss s) by (rewrite (r_mss _ _ RL); unfold t1; rewrite Es1; reflexivity).
  assert (Emx5 : mmax s5 = mmax s) by (rewrite (r_mmax _ _ RL); unfold t1; rewrite Es1; reflexivity).
  assert (Een5 : forall j, j <> 0 -> ents s5 j = ents s j).
  { intros j Hj. rewrite (r_ents _ _ RL). change (ents t1 j) with (ents s1 j). apply (u_ents _ _ _ _ CU); auto. }
  assert (Hm5 : zlen (ztake m (mini_chain s)) = m) by (pose proof (u_m _ _ _ _ CU); rewrite zlen_ztake; lia).
  assert (I51 : Inv1 s5 ch n).
  { split; auto. unfold cover. rewrite Em5, Ess5, Ems5, Hm5. apply (u_cov _ _ _ _ CU). }
  assert (I5' : Inv s5 ch n).
  { split; auto. intros e He. unfold cap_of, sec, kind. rewrite Een5, Ess5, Ems5, Emx5 by auto. apply (proj2 HI); auto. }
  assert (Edc5 : dir_chain s5 = dir_chain s) by (rewrite (r_dir _ _ RL); exact Edc).
  assert (Ef5 : file s5 = g) by (rewrite CO5; reflexivity).
  split; [exact I5'|]. split; [|split; [|split; [|split; [|split]]]].
  - split; [rewrite Ess5; auto|]. split; [rewrite Ess5; auto|]. rewrite Edc5, Ess5. replace (dir_free s5) with (@nil Z) by (rewrite CO5; reflexivity).
    cbn [app]. apply NoDup_app_iff in D3. split; [apply D3|]. split; [intros i Hi; apply D4; apply in_or_app; auto|].
    intros i Hi. rewrite Een5 by (intros ->; apply Hi; left; auto). apply D5. auto.
  - destruct X1. rewrite CO5. unfold sx. constructor; cbn; auto.
    + rewrite <- Ess. auto.
    + rewrite <- Ess. auto.
  - destruct HO as [P1 P2 P3 P4 P5]. constructor; auto. cbn. rewrite Edc5. auto.
  - constructor; cbn [c_s c_mod c_rest].
    + intros i Hi _. rewrite Ef5, Ess5, Edc5. rewrite IMG by auto. unfold img_of. cbn [c_s c_rest].
      destruct (load_img g (ss s) (dir_chain s) i (c_rest c i) (ents s1 i)) as [_ Q]; auto. { apply (j_rest _ _ HJ); auto. }
      rewrite Q. f_equal. rewrite (r_ents _ _ RL). reflexivity.
    + intros i Hi Hn _. rewrite Ef5, Ess5, Edc5 in *. apply BLK; auto.
    + intros i [].
    + intros i Hi. destruct (load_img g (ss s) (dir_chain s) i (c_rest c i) (ents s1 i)) as [_ Q]; auto; [apply (j_rest _ _ HJ); auto|].
      rewrite Q. apply (j_rest _ _ HJ); auto.
    + rewrite (r_ents _ _ RL). apply (u_rsize _ _ _ _ CU). apply (j_root _ _ HJ).
  - intros e He. unfold content. rewrite Een5 by auto. apply map_ext_in. intros i Hi. apply In_zseq in Hi.
    assert (Ek : kind s5 e = kind s e) by (unfold kind; rewrite Een5, Emx5 by auto; auto).
    assert (V5 : valid s5 ch e i).
    { split; auto. pose proof (inv_sz _ _ _ I5' e He) as Q. unfold cap_of in Q. rewrite Een5 in Q by auto. lia. }
    assert (Esa : saddr s5 (ch e) (kind s5 e) i = saddr s (ch e) (kind s e) i).
    { rewrite Ek. unfold saddr. rewrite Ess5, Ems5. destruct (kind s e) eqn:Eke; auto. unfold caddr. rewrite Ess5, Em5.
      pose proof (mpos_range _ _ _ _ _ I51 V5 Ek) as Q. unfold mpos_of in Q. rewrite Ems5 in Q.
      assert (Q2 : 0 <= (nthd (ch e) (i / mss s) * mss s + i mod mss s) / ss s < m).
      { rewrite <- Hm5, <- Em5, <- Ess5. apply (cover_pos _ _ _ _ _ _ I5). rewrite Ems5. exact Q. }
      unfold nthd at 1. rewrite znth_ztake by lia. replace (_ <? m) with true by lia. reflexivity. }
    unfold sbyte. rewrite Ef5. destruct (saddr_sector _ _ _ _ _ I51 V5) as (x & r & o & Ea & Hr & Hx & Ho).
    rewrite <- Esa, Ea, Ess5. rewrite Ess5 in Hr.
    assert (Co : chain_owner o) by (destruct Ho; subst o; split; discriminate).
    assert (Hx1 : In x (fowned t1 ch [] o)).
    { destruct Ho; subst o; cbn [fowned] in *; [rewrite <- (r_cont _ _ RL); auto|]. unfold reg in *. rewrite (r_ents _ _ RL), (r_mmax _ _ RL) in Hx. auto. }
    assert (Hxn : 0 <= x < nf) by (eapply Hused; eauto).
    assert (Hxd : ~ In x (dir_chain s)).
    { intros Q. assert (Q' : In x (fowned t1 ch [] ODir)) by (cbn; rewrite Edc; auto). pose proof (ti_disj _ _ _ HT1 o ODir x Hx1 Q'). destruct Ho; subst; discriminate. }
    rewrite SD; [|intros [?|?]; [tauto|lia]|lia|lia]. rewrite ?Ess in SO. rewrite SO; [rewrite Efile; auto| |lia|lia].
    intros [Q|Q]; [lia|]. destruct HR as (_ & _ & _ & _ & _ & _ & R7 & _ & _ & _ & R11).
    unfold table_sectors in Q. rewrite !in_app_iff in Q. destruct (owned_nomark _ _ _ HT1 o x Hx1) as [N1 N2]. destruct Q as [Q|[Q|Q]].
    + change (fat_sectors (difat s1)) with (fat_sectors (difat (c_s (with_s c1 t1)))) in Q. rewrite Efs in Q. apply R7 in Q. apply N1. exact Q.
    + apply R11 in Q. apply N2. exact Q.
    + pose proof (ti_disj _ _ _ HT1 o OMFat x Hx1 Q). destruct Ho; subst; discriminate.
  - intros i Hi. cbn [c_rest]. destruct (load_img g (ss s) (dir_chain s) i (c_rest c i) (ents s1 i)) as [_ Q]; auto. apply (j_rest _ _ HJ); auto.
Qed.
