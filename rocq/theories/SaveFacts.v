(** The byte level of saving and reopening (CfbSave.v): words, header, tables. *)
From Verif Require Import Base BaseFacts Codec CodecFacts ObjModel PropsObj LRUModel CfbModel ChainSpec ChainProofs TableInv DifatInv CfbInv CfbBytes CfbExtra CfbSave.
From Coq Require Import ZArith List Bool Lia.
Import ListNotations.
Open Scope Z_scope.
Notation length := List.length.

(** ** Words *)
Definition words (l : list Z) : list Z := flat_map (le_bytes 4) l.

Lemma zlen_words : forall l, zlen (words l) = 4 * zlen l.
Proof. induction l; [reflexivity|]. unfold words in *. cbn [flat_map]. rewrite zlen_app, zlen_le_bytes, zlen_cons, IHl. lia. Qed.

Lemma words_app : forall a b, words (a ++ b) = words a ++ words b.
Proof. intros. apply flat_map_app. Qed.

Lemma pack_words : forall l, Forall u32 l -> cat_map (pack_u 4) l = Ok (words l).
Proof.
  intros l H. apply cat_map_total. intros x Hx. rewrite Forall_forall in H. apply H in Hx. unfold u32 in Hx.
  apply pack_total. change (256 ^ Z.of_nat 4) with 4294967296. lia.
Qed.

Lemma pack_words_inv : forall l b, cat_map (pack_u 4) l = Ok b -> Forall u32 l /\ b = words l.
Proof.
  intros l b H. assert (F : Forall u32 l).
  { apply Forall_forall. intros x Hx. destruct (cat_map_Ok _ _ _ _ H _ Hx) as [e E]. apply pack_ok in E.
    change (256 ^ Z.of_nat 4) with 4294967296 in E. unfold u32. lia. }
  split; auto. rewrite (pack_words l F) in H. congruence.
Qed.

Lemma rd_words_app : forall l r, Forall u32 l -> rd_words (length l) (words l ++ r) = Ok (l, r).
Proof.
  induction l as [|v l IH]; intros r H; [reflexivity|]. inversion H; subst. cbn [length rd_words].
  unfold words. cbn [flat_map]. fold (words l). rewrite <- app_assoc, rd_u_app by (unfold u32 in *; change (256 ^ Z.of_nat 4) with 4294967296; lia).
  cbn [bind]. rewrite IH by auto. reflexivity.
Qed.

Lemma words_of_words : forall l r, Forall u32 l -> words_of (length l) (words l ++ r) = l.
Proof.
  induction l as [|v l IH]; intros r H; [reflexivity|]. inversion H; subst. cbn [length words_of].
  unfold words. cbn [flat_map]. fold (words l). rewrite <- app_assoc.
  assert (ztake 4 (le_bytes 4 v ++ words l ++ r) = le_bytes 4 v) as ->.
  { replace 4 with (zlen (le_bytes 4 v)) at 1 by (rewrite zlen_le_bytes; reflexivity). apply ztake_app_exact. }
  assert (zdrop 4 (le_bytes 4 v ++ words l ++ r) = words l ++ r) as ->.
  { replace 4 with (zlen (le_bytes 4 v)) at 1 by (rewrite zlen_le_bytes; reflexivity). apply zdrop_app_exact. }
  rewrite le_val_le_bytes, IH by auto. f_equal. apply Z.mod_small. unfold u32 in *. change (256 ^ Z.of_nat 4) with 4294967296. lia.
Qed.

Lemma frombytes_words : forall l, Forall u32 l -> frombytes (words l) = Ok l.
Proof.
  intros l H. unfold frombytes. rewrite zlen_words. rewrite Z.mul_comm, Z_mod_mult, Z_div_mult by lia. cbn [Z.eqb bind].
  unfold zlen. rewrite Nat2Z.id. rewrite <- (app_nil_r (words l)) at 1. rewrite words_of_words; auto.
Qed.

(** ** Header *)
Definition hdr_ok (h : header) : Prop :=
  zlen (h_class h) = 16 /\ 0 <= h_minor h < 65536 /\ 0 <= h_major h < 65536 /\ (h_ss h = 512 \/ h_ss h = 4096) /\ h_mss h = 64 /\
  u32 (h_dir_cnt h) /\ u32 (h_fat_cnt h) /\ u32 (h_dir_start h) /\ u32 (h_sig h) /\ u32 (h_mmax h) /\
  u32 (h_mf_start h) /\ u32 (h_mf_cnt h) /\ u32 (h_df_start h) /\ u32 (h_df_cnt h) /\
  zlen (h_difat h) = 109 /\ Forall u32 (h_difat h).

Definition head76 (h : header) : list Z :=
  magic ++ h_class h ++ le_bytes 2 (h_minor h) ++ le_bytes 2 (h_major h) ++ le_bytes 2 65534 ++ le_bytes 2 (Z.log2 (h_ss h)) ++
  le_bytes 2 (Z.log2 (h_mss h)) ++ zeros 6 ++ words [h_dir_cnt h; h_fat_cnt h; h_dir_start h; h_sig h; h_mmax h;
     h_mf_start h; h_mf_cnt h; h_df_start h; h_df_cnt h].

Lemma zlen_head76 : forall h, zlen (h_class h) = 16 -> zlen (head76 h) = 76.
Proof.
  intros h H. unfold head76. rewrite !zlen_app, H, !zlen_le_bytes, zlen_words. change (zlen magic) with 8. 
  change (zlen (zeros 6)) with 6. reflexivity.
Qed.

Lemma header_bytes_ok : forall h, hdr_ok h ->
  header_bytes h = Ok (head76 h ++ words (h_difat h) ++ zeros (h_ss h - 512)).
Proof.
  intros h (Hc & Hmi & Hma & Hss & Hms & H1 & H2 & H3 & H4 & H5 & H6 & H7 & H8 & H9 & Hl & Hd).
  unfold header_bytes. assert (L1 : 0 <= Z.log2 (h_ss h) < 65536) by (destruct Hss as [-> | ->]; vm_compute; split; discriminate || reflexivity).
  assert (L2 : 0 <= Z.log2 (h_mss h) < 65536) by (rewrite Hms; vm_compute; split; discriminate || reflexivity).
  rewrite !(pack_total 2) by (change (256 ^ Z.of_nat 2) with 65536; lia). cbn [bind].
  rewrite pack_words by (repeat constructor; auto; unfold u32 in *; lia). cbn [bind].
  replace (109 <=? zlen (h_difat h)) with true by lia. rewrite ztake_all by lia. rewrite pack_words by auto. cbn [bind].
  assert (E : magic ++ h_class h ++ le_bytes 2 (h_minor h) ++ le_bytes 2 (h_major h) ++ le_bytes 2 65534 ++ le_bytes 2 (Z.log2 (h_ss h)) ++
    le_bytes 2 (Z.log2 (h_mss h)) ++ zeros 6 ++ words [h_dir_cnt h; h_fat_cnt h; h_dir_start h; h_sig h; h_mmax h;
     h_mf_start h; h_mf_cnt h; h_df_start h; h_df_cnt h] ++ words (h_difat h) = head76 h ++ words (h_difat h))
    by (unfold head76; rewrite <- !app_assoc; reflexivity).
  rewrite E. rewrite zlen_app, zlen_head76, zlen_words, Hl by auto. rewrite <- app_assoc. reflexivity.
Qed.

Ltac rdw := rewrite rd_u_app by (change (256 ^ Z.of_nat 4) with 4294967296; change (256 ^ Z.of_nat 2) with 65536; unfold u32 in *; lia); cbn [bind].

Lemma rd_app : forall a b, rd (zlen a) (a ++ b) = (a, b).
Proof. intros. unfold rd. rewrite ztake_app_exact, zdrop_app_exact. auto. Qed.

Lemma parse_header_ok : forall h r, hdr_ok h -> parse_header (head76 h ++ words (h_difat h) ++ r) = Ok h.
Proof.
  intros h r (Hc & Hmi & Hma & Hss & Hms & H1 & H2 & H3 & H4 & H5 & H6 & H7 & H8 & H9 & Hl & Hd).
  unfold parse_header, head76. unfold words at 1. cbn [flat_map]. rewrite <- !app_assoc.
  assert (L1 : 0 <= Z.log2 (h_ss h) < 65536) by (destruct Hss as [-> | ->]; vm_compute; split; discriminate || reflexivity).
  assert (L2 : 0 <= Z.log2 (h_mss h) < 65536) by (rewrite Hms; vm_compute; split; discriminate || reflexivity).
  change 8 with (zlen magic) at 1. rewrite rd_app. rewrite zlist_eqb_refl.
  rewrite <- Hc at 1. rewrite rd_app. rdw. rdw. rdw.
  replace (65534 =? 65534) with true by reflexivity. rdw. rdw.
  assert (P1 : 2 ^ Z.log2 (h_ss h) = h_ss h) by (destruct Hss as [-> | ->]; reflexivity).
  assert (P2 : 2 ^ Z.log2 (h_mss h) = h_mss h) by (rewrite Hms; reflexivity).
  rewrite P1, P2. replace ((h_ss h =? 4096) || (h_ss h =? 512)) with true by (destruct Hss as [-> | ->]; reflexivity).
  replace (h_mss h =? 64) with true by (rewrite Hms; reflexivity).
  change 6 with (zlen (zeros 6)) at 1. rewrite rd_app. cbn [app]. do 9 rdw.
  assert (El : length (h_difat h) = 109%nat) by (unfold zlen in Hl; lia).
  rewrite <- El. rewrite rd_words_app by auto. cbn [bind]. destruct h. reflexivity.
Qed.

(** ** Files as sectors; the header is sector -1 *)
Definition same_out (ssz : Z) (P : Z -> Prop) (f f' : list Z) : Prop :=
  forall x k, ~ P x -> -1 <= x -> 0 <= k < ssz -> fbyte f' ((x + 1) * ssz + k) = fbyte f ((x + 1) * ssz + k).

Lemma same_out_refl : forall n P f, same_out n P f f.
Proof. intros n P f x k _ _ _. auto. Qed.
Lemma same_out_trans : forall n P Q a b c, same_out n P a b -> same_out n Q b c -> same_out n (fun x => P x \/ Q x) a c.
Proof. intros n P Q a b c H1 H2 x k Hn Hx Hk. rewrite H2, H1; auto. Qed.
Lemma same_out_weak : forall n (P Q : Z -> Prop) a b, (forall x, P x -> Q x) -> same_out n P a b -> same_out n Q a b.
Proof. intros n P Q a b H H1 x k Hn Hx Hk. apply H1; auto. Qed.

Lemma sector_bytes_same : forall n P a b x, same_out n P a b -> ~ P x -> -1 <= x -> sector_bytes b n x = sector_bytes a n x.
Proof. intros n P a b x H Hn Hx. unfold sector_bytes. apply map_ext_in. intros k Hk. apply In_zseq in Hk. apply H; auto; lia. Qed.

Lemma nthd_app1 : forall l r k, k < zlen l -> nthd (l ++ r) k = nthd l k.
Proof. intros. unfold nthd. rewrite znth_app1 by lia. auto. Qed.

Lemma fwrite_sector : forall f n x d, 0 < n -> -1 <= x -> zlen d <= n ->
  same_out n (fun y => y = x) f (fwrite f ((x + 1) * n) d) /\
  (forall k, 0 <= k < zlen d -> fbyte (fwrite f ((x + 1) * n) d) ((x + 1) * n + k) = nthd d k) /\
  (forall k, zlen d <= k < n -> fbyte (fwrite f ((x + 1) * n) d) ((x + 1) * n + k) = fbyte f ((x + 1) * n + k)).
Proof.
  intros f n x d Hn Hx Hd. pose proof (zlen_nonneg _ d). assert (Hp : 0 <= (x + 1) * n) by nia. split; [|split].
  - intros y k Hy Hy1 Hk. rewrite fbyte_fwrite by auto.
    replace (((x + 1) * n <=? (y + 1) * n + k) && ((y + 1) * n + k <? (x + 1) * n + zlen d)) with false; auto.
    symmetry. apply andb_false_iff. destruct (Z.lt_ge_cases y x); [left|right]; nia.
  - intros k Hk. rewrite fbyte_fwrite by auto. replace (_ && _) with true by lia. f_equal. lia.
  - intros k Hk. rewrite fbyte_fwrite by auto. replace (_ && _) with false by lia. auto.
Qed.

Lemma zlen_fwrite_ge : forall f pos d, 0 <= pos -> zlen f <= zlen (fwrite f pos d) /\ (d <> [] -> pos + zlen d <= zlen (fwrite f pos d)).
Proof.
  intros f pos d Hp. pose proof (zlen_nonneg _ d). pose proof (zlen_nonneg _ f). destruct d as [|b d]; [cbn [fwrite]; split; [lia|congruence]|].
  unfold fwrite. set (q := b :: d) in *. rewrite !zlen_app.
  assert (E : zlen (ztake pos (f ++ zeros (pos - zlen f))) = pos).
  { rewrite zlen_ztake by lia. rewrite zlen_app. assert (pos <= zlen f + zlen (zeros (pos - zlen f))); [|lia].
    unfold zeros, zlen. rewrite repeat_length. unfold zlen in *. lia. }
  rewrite E. split; [|intros _; pose proof (zlen_nonneg _ (zdrop (pos + zlen q) f)); lia].
  destruct (Z.lt_ge_cases (pos + zlen q) (zlen f)).
  - rewrite zlen_zdrop by lia. lia.
  - pose proof (zlen_nonneg _ (zdrop (pos + zlen q) f)). lia.
Qed.

Lemma sector_bytes_fwrite : forall f n x d, 0 < n -> -1 <= x -> zlen d = n -> sector_bytes (fwrite f ((x + 1) * n) d) n x = d.
Proof.
  intros f n x d Hn Hx Hd. destruct (fwrite_sector f n x d Hn Hx ltac:(lia)) as (_ & W & _).
  unfold sector_bytes. apply znth_ext.
  - rewrite zlen_map, zlen_zseq; lia.
  - rewrite zlen_map, zlen_zseq by lia. intros i Hi. rewrite znth_map, znth_zseq by lia. cbn. rewrite W by lia.
    unfold nthd. destruct (znth_in_range _ d i ltac:(lia)) as [v Hv]. rewrite Hv. reflexivity.
Qed.

Lemma fread_sector : forall f n x, 0 < n -> -1 <= x -> (x + 2) * n <= zlen f -> fread f ((x + 1) * n) n = sector_bytes f n x.
Proof.
  intros f n x Hn Hx Hl. unfold fread, sector_bytes. assert (Hp : 0 <= (x + 1) * n) by nia. apply znth_ext.
  - rewrite zlen_slice, zlen_map, zlen_zseq by lia. nia.
  - rewrite zlen_slice by lia. intros i Hi. rewrite znth_slice, znth_map, znth_zseq by lia.
    replace (i <? n) with true by nia. unfold fbyte.
    destruct (znth_in_range _ f ((x + 1) * n + i)) as [v Hv]; [nia|]. rewrite Hv. cbn. rewrite Hv.
    match goal with |- (if ?c then _ else _) = _ => replace c with true by nia end. reflexivity.
Qed.

(** ** Tables in sectors *)
Fixpoint holds_table (f : list Z) (n : Z) (sids tbl : list Z) : Prop :=
  match sids with
  | [] => tbl = []
  | sid :: r => sector_bytes f n sid = words (ztake (n / 4) tbl) /\ holds_table f n r (zdrop (n / 4) tbl)
  end.

Lemma holds_table_same : forall n P f f' sids tbl, same_out n P f f' -> (forall x, In x sids -> ~ P x /\ -1 <= x) ->
  holds_table f n sids tbl -> holds_table f' n sids tbl.
Proof.
  intros n P f f' sids. induction sids as [|x sids IH]; intros tbl HS H HT; cbn [holds_table] in *; auto.
  destruct (H x (or_introl eq_refl)) as [Hx Hx1]. rewrite (sector_bytes_same _ _ _ _ _ HS Hx Hx1). destruct HT. split; auto.
  apply IH; auto. intros; apply H; right; auto.
Qed.

Lemma write_table_ok : forall n sids f tbl, 0 < n -> n mod 4 = 0 -> NoDup sids -> (forall x, In x sids -> 0 <= x) ->
  zlen tbl = zlen sids * (n / 4) -> Forall u32 tbl ->
  exists f', write_table f n sids tbl = Ok f' /\ same_out n (fun x => In x sids) f f' /\ holds_table f' n sids tbl /\
    zlen f <= zlen f' /\ forall x, In x sids -> (x + 2) * n <= zlen f'.
Proof.
  intros n sids. induction sids as [|x sids IH]; intros f tbl Hn Hm ND Hs Hl Hu; cbn [write_table holds_table].
  - exists f. split; auto. split; [apply same_out_refl|]. change (zlen (@nil Z)) with 0 in Hl. split; [apply zlen_zero_iff; lia|]. split; [lia|]. intros x [].
  - apply NoDup_cons_iff in ND. destruct ND as [Hx ND]. pose proof (Hs x (or_introl eq_refl)) as Hx0.
    rewrite zlen_cons in Hl. pose proof (zlen_nonneg _ sids).
    assert (H4 : n = 4 * (n / 4)) by (rewrite <- Z_div_exact_full_2; lia).
    assert (Hge : n / 4 <= zlen tbl) by nia.
    assert (Hk : zlen (ztake (n / 4) tbl) = n / 4) by (rewrite zlen_ztake; lia). rewrite Hk, Z.eqb_refl.
    rewrite pack_words by (apply Forall_ztake; auto). cbn [bind].
    assert (Hw : zlen (words (ztake (n / 4) tbl)) = n) by (rewrite zlen_words; lia).
    set (f1 := fwrite f ((x + 1) * n) (words (ztake (n / 4) tbl))).
    destruct (zlen_fwrite_ge f ((x + 1) * n) (words (ztake (n / 4) tbl))) as [G1 G2]; [nia|]. fold f1 in G1, G2.
    assert (words (ztake (n / 4) tbl) <> []) as G3 by (intros Ee; rewrite Ee in Hw; change (zlen (@nil Z)) with 0 in Hw; lia). specialize (G2 G3).
    destruct (IH f1 (zdrop (n / 4) tbl)) as (f' & E & HS & HT & G4 & G5); auto.
    { intros; apply Hs; right; auto. } { rewrite zlen_zdrop by lia. nia. } { apply Forall_zdrop; auto. }
    exists f'. split; auto. split; [|split; [split; auto|split; [lia|]]].
    3:{ intros y [<-|Hy]; [|auto]. rewrite Hw in G2. lia. }
    + eapply same_out_weak; [|eapply same_out_trans; [apply (fwrite_sector f n x (words (ztake (n / 4) tbl))); lia|exact HS]].
      cbn. intros y [->|Hy]; auto.
    + rewrite (sector_bytes_same _ _ _ _ _ HS Hx) by lia. unfold f1. apply sector_bytes_fwrite; auto. lia.
Qed.

Lemma read_table_ok : forall n sids f tbl, 0 < n -> n mod 4 = 0 -> (forall x, In x sids -> 0 <= x /\ (x + 2) * n <= zlen f) ->
  zlen tbl = zlen sids * (n / 4) -> Forall u32 tbl -> holds_table f n sids tbl -> read_table f n sids = Ok tbl.
Proof.
  intros n sids. induction sids as [|x sids IH]; intros f tbl Hn Hm Hs Hl Hu HT; cbn [read_table holds_table] in *.
  - subst. auto.
  - destruct (Hs x (or_introl eq_refl)) as [Hx0 Hx1]. rewrite zlen_cons in Hl. pose proof (zlen_nonneg _ sids). destruct HT as [H1 H2].
    rewrite fread_sector by lia. rewrite H1, frombytes_words by (apply Forall_ztake; auto). cbn [bind].
    rewrite (IH f (zdrop (n / 4) tbl)); auto.
    + cbn [bind]. rewrite ztake_zdrop. auto.
    + intros; apply Hs; right; auto.
    + assert (0 <= n / 4) by (apply Z.div_pos; lia). rewrite zlen_zdrop by nia. nia.
    + apply Forall_zdrop; auto.
Qed.

(** ** DIFAT rows *)
Fixpoint holds_rows (f : list Z) (n sid : Z) (rows : list (list Z)) : Prop :=
  match rows with
  | [] => True
  | row :: r => sector_bytes f n sid = words row /\ holds_rows f n (lastz row) r
  end.

Lemma difat_sectors_cons : forall d row rows, difat_sectors d (row :: rows) = d :: difat_sectors (lastz row) rows.
Proof. reflexivity. Qed.

Lemma holds_rows_same : forall n P f f' rows sid, same_out n P f f' -> (forall x, In x (difat_sectors sid rows) -> ~ P x /\ -1 <= x) ->
  holds_rows f n sid rows -> holds_rows f' n sid rows.
Proof.
  intros n P f f' rows. induction rows as [|row rows IH]; intros sid HS H HT; cbn [holds_rows] in *; auto.
  rewrite difat_sectors_cons in H. destruct (H sid (or_introl eq_refl)) as [Hx Hx1].
  rewrite (sector_bytes_same _ _ _ _ _ HS Hx Hx1). destruct HT. split; auto.
  apply IH; auto. intros; apply H; right; auto.
Qed.

Lemma small_not_mark : forall x, 0 <= x < MAXREGSECT -> is_mark x = false.
Proof. unfold is_mark, MAXREGSECT, DIFSECT, FATSECT, ENDOFCHAIN, FREESECT. intros. lia. Qed.

Lemma write_rows_ok : forall n rows f sid, 0 < n -> n mod 4 = 0 -> NoDup (difat_sectors sid rows) ->
  (forall x, In x (difat_sectors sid rows) -> 0 <= x < MAXREGSECT) ->
  Forall (fun r => zlen r = n / 4) rows -> Forall (Forall u32) rows ->
  exists f', write_rows f n sid rows = Ok f' /\ same_out n (fun x => In x (difat_sectors sid rows)) f f' /\ holds_rows f' n sid rows /\
    zlen f <= zlen f' /\ forall x, In x (difat_sectors sid rows) -> (x + 2) * n <= zlen f'.
Proof.
  intros n rows. induction rows as [|row rows IH]; intros f sid Hn Hm ND Hs Hl Hu; cbn [write_rows holds_rows].
  - exists f. split; auto. split; [apply same_out_refl|]. split; auto. split; [lia|]. intros x [].
  - rewrite difat_sectors_cons in *. apply NoDup_cons_iff in ND. destruct ND as [Hx ND]. pose proof (Hs sid (or_introl eq_refl)) as Hx0.
    inversion Hl as [|? ? Hl1 Hl2]; subst. inversion Hu as [|? ? Hu1 Hu2]; subst.
    rewrite small_not_mark by auto. cbn [negb]. replace (n / 4 <=? zlen row) with true by lia.
    rewrite ztake_all by lia. rewrite pack_words by auto. cbn [bind].
    assert (H4 : n = 4 * (n / 4)) by (rewrite <- Z_div_exact_full_2; lia).
    assert (Hw : zlen (words row) = n) by (rewrite zlen_words; lia).
    set (f1 := fwrite f ((sid + 1) * n) (words row)).
    destruct (zlen_fwrite_ge f ((sid + 1) * n) (words row)) as [G1 G2]; [nia|]. fold f1 in G1, G2.
    assert (words row <> []) as G3 by (intros Ee; rewrite Ee in Hw; change (zlen (@nil Z)) with 0 in Hw; lia). specialize (G2 G3).
    destruct (IH f1 (lastz row)) as (f' & E & HS & HT & G4 & G5); auto. { intros; apply Hs; right; auto. }
    exists f'. split; [exact E|]. split; [|split; [split; auto|split; [lia|]]].
    3:{ intros y [<-|Hy]; [|auto]. rewrite Hw in G2. lia. }
    + eapply same_out_weak; [|eapply same_out_trans; [apply (fwrite_sector f n sid (words row)); lia|exact HS]].
      cbn. intros y [->|Hy]; auto.
    + rewrite (sector_bytes_same _ _ _ _ _ HS Hx) by lia. unfold f1. apply sector_bytes_fwrite; auto. lia.
Qed.

Lemma zdrop_sector : forall f n x, 0 < n -> -1 <= x -> (x + 2) * n <= zlen f ->
  zdrop ((x + 1) * n) f = sector_bytes f n x ++ zdrop ((x + 2) * n) f.
Proof.
  intros f n x Hn Hx Hl. rewrite <- fread_sector by auto. unfold fread, slice.
  replace ((x + 1) * n + n - (x + 1) * n) with n by lia.
  rewrite <- (ztake_zdrop _ n (zdrop ((x + 1) * n) f)) at 1. f_equal. rewrite zdrop_zdrop by nia. f_equal. lia.
Qed.

Lemma read_rows_ok : forall n rows f sid, 0 < n -> n mod 4 = 0 ->
  (forall x, In x (difat_sectors sid rows) -> 0 <= x < MAXREGSECT /\ (x + 2) * n <= zlen f) ->
  Forall (fun r => zlen r = n / 4) rows -> Forall (Forall u32) rows -> holds_rows f n sid rows ->
  read_rows (length rows) f n sid = Ok rows.
Proof.
  intros n rows. induction rows as [|row rows IH]; intros f sid Hn Hm Hs Hl Hu HT; cbn [read_rows length holds_rows] in *; auto.
  rewrite difat_sectors_cons in *. destruct (Hs sid (or_introl eq_refl)) as [Hx0 Hx1].
  inversion Hl as [|? ? Hl1 Hl2]; subst. inversion Hu as [|? ? Hu1 Hu2]; subst. destruct HT as [H1 H2].
  rewrite small_not_mark by auto. rewrite zdrop_sector by lia. rewrite H1.
  assert (El : Z.to_nat (n / 4) = length row) by (unfold zlen in Hl1; lia).
  rewrite El, rd_words_app by auto. cbn [bind]. rewrite IH; auto. intros; apply Hs; right; auto.
Qed.

(** ** Free lists and the last used entry *)
Lemma In_free_from : forall tbl i x, In x (free_from i tbl) <-> i <= x /\ znth tbl (x - i) = Some FREESECT.
Proof.
  induction tbl as [|v tbl IH]; intros i x; cbn [free_from].
  - split; [intros []|intros [_ H]]. apply znth_Some in H. change (zlen (@nil Z)) with 0 in H. lia.
  - assert (Hc : forall x, i + 1 <= x -> znth (v :: tbl) (x - i) = znth tbl (x - (i + 1))).
    { intros y Hy. change (v :: tbl) with ([v] ++ tbl). rewrite znth_app2 by (change (zlen [v]) with 1; lia).
      change (zlen [v]) with 1. f_equal. lia. }
    assert (H0 : forall r, znth (v :: r) 0 = Some v) by reflexivity.
    destruct (Z.eqb_spec v FREESECT) as [->|N].
    + cbn [In]. rewrite IH. split.
      * intros [->|[H1 H2]]; [rewrite Z.sub_diag, H0; split; auto; lia|]. rewrite Hc by lia. split; [lia|auto].
      * intros [H1 H2]. destruct (Z.eq_dec i x); [left; auto|right]. rewrite Hc in H2 by lia. split; [lia|auto].
    + rewrite IH. split.
      * intros [H1 H2]. rewrite Hc by lia. split; [lia|auto].
      * intros [H1 H2]. destruct (Z.eq_dec i x) as [->|Ne]; [rewrite Z.sub_diag, H0 in H2; congruence|].
        rewrite Hc in H2 by lia. split; [lia|auto].
Qed.

Lemma free_from_lt : forall tbl i x, In x (free_from i tbl) -> i <= x < i + zlen tbl.
Proof. intros tbl i x H. apply In_free_from in H. destruct H as [H1 H2]. apply znth_Some in H2. lia. Qed.

Lemma NoDup_free_from : forall tbl i, NoDup (free_from i tbl).
Proof.
  induction tbl as [|v tbl IH]; intros i; cbn [free_from]; [constructor|]. destruct (v =? FREESECT); auto.
  constructor; auto. intros H. apply free_from_lt in H. lia.
Qed.

Lemma free_from_app : forall a b i, free_from i (a ++ b) = free_from i a ++ free_from (i + zlen a) b.
Proof.
  induction a as [|v a IH]; intros b i; cbn [app free_from].
  - rewrite Z.add_0_r. auto.
  - rewrite IH. rewrite zlen_cons. replace (i + (zlen a + 1)) with (i + 1 + zlen a) by lia.
    replace (i + (1 + zlen a)) with (i + 1 + zlen a) by lia. destruct (v =? FREESECT); auto.
Qed.

Lemma free_from_repeat : forall k i, free_from i (repeat FREESECT k) = zseq i (Z.of_nat k).
Proof.
  induction k as [|k IH]; intros i; [reflexivity|]. cbn [repeat free_from]. rewrite Z.eqb_refl, IH.
  unfold zseq. rewrite !Nat2Z.id. cbn [seq map]. rewrite Z.add_0_r. f_equal. rewrite <- seq_shift, map_map.
  apply map_ext. intros a. lia.
Qed.

Lemma rev_repeat : forall A (x : A) n, rev (repeat x n) = repeat x n.
Proof.
  intros A x. assert (H : forall n, repeat x n ++ [x] = x :: repeat x n) by (induction n; cbn; congruence).
  induction n; cbn; auto. rewrite IHn. auto.
Qed.

(** the last used entry splits the table *)
Lemma scan_free_spec : forall l i, l <> [] ->
  (exists k v r, l = repeat FREESECT k ++ v :: r /\ v <> FREESECT /\ scan_free l i = i + Z.of_nat k) \/
  (l = repeat FREESECT (length l) /\ scan_free l i = i + zlen l - 1).
Proof.
  induction l as [|v l IH]; intros i H; [congruence|]. cbn [scan_free]. destruct (Z.eqb_spec v FREESECT) as [->|N].
  - destruct l as [|w l].
    + right. cbn [scan_free]. auto.
    + destruct (IH (i + 1)) as [(k & u & r & E & Hu & Sc)|[E Sc]]; [discriminate| |].
      * left. exists (S k), u, r. cbn [repeat app]. rewrite <- E. split; auto. split; auto. rewrite Sc. lia.
      * right. rewrite Sc. split; [cbn [length repeat] in *; congruence|]. rewrite (zlen_cons _ FREESECT). lia.
  - left. exists 0%nat, v, l. split; auto. split; auto. lia.
Qed.

Lemma trailing_free_spec : forall tbl, tbl <> [] -> exists i, trailing_free tbl = Ok i /\
  ((exists a v, tbl = a ++ v :: repeat FREESECT (Z.to_nat i) /\ v <> FREESECT /\ 0 <= i /\ zlen tbl - i = zlen a + 1) \/
   (tbl = repeat FREESECT (length tbl) /\ i = zlen tbl - 1)).
Proof.
  intros tbl H. exists (scan_free (rev tbl) 0). split; [destruct tbl; [congruence|reflexivity]|].
  destruct (scan_free_spec (rev tbl) 0) as [(k & v & r & E & Hv & Sc)|[E Sc]].
  - intros E. apply H. rewrite <- (rev_involutive tbl), E. reflexivity.
  - left. exists (rev r), v. rewrite Sc, Z.add_0_l, Nat2Z.id.
    assert (Et : tbl = rev r ++ v :: repeat FREESECT k).
    { rewrite <- (rev_involutive tbl), E, rev_app_distr. cbn [rev]. rewrite rev_repeat, <- app_assoc. reflexivity. }
    split; auto. split; auto. split; [lia|]. rewrite Et, zlen_app, zlen_cons. unfold zlen at 2. rewrite repeat_length. lia.
  - right. rewrite Sc. unfold zlen. rewrite rev_length in *. split; [|lia].
    rewrite <- (rev_involutive tbl) at 1. rewrite E. apply rev_repeat.
Qed.

(** ** All tables together *)
Definition table_sectors (s : cfb) (rows : list (list Z)) (mch : list Z) : list Z :=
  fat_sectors (difat s) ++ difat_sectors (difat_start s) rows ++ mch.

Record Tables (c : cfile) (row0 : list Z) (rows : list (list Z)) (mch : list Z) : Prop := {
  tb_hdr : hdr_ok (header_of c);
  tb_difat : difat (c_s c) = row0 :: rows;
  tb_rowlen : Forall (fun r => zlen r = ss (c_s c) / 4) rows;
  tb_rowu : Forall (Forall u32) rows;
  tb_cnt : zlen rows = difat_cnt (c_s c);
  tb_nodup : NoDup (table_sectors (c_s c) rows mch);
  tb_range : forall x, In x (table_sectors (c_s c) rows mch) -> 0 <= x < MAXREGSECT;
  tb_fatlen : zlen (fat (c_s c)) = zlen (fat_sectors (difat (c_s c))) * (ss (c_s c) / 4);
  tb_fatu : Forall u32 (fat (c_s c));
  tb_mch : get_fat_chain (fat (c_s c)) (Some (minifat_start (c_s c))) = Ok mch;
  tb_mlen : zlen (minifat (c_s c)) = zlen mch * (ss (c_s c) / 4);
  tb_mu : Forall u32 (minifat (c_s c)) }.

Record Stored (f : list Z) (c : cfile) (row0 : list Z) (rows : list (list Z)) (mch : list Z) : Prop := {
  st_hdr : sector_bytes f (ss (c_s c)) (-1) = head76 (header_of c) ++ words row0 ++ zeros (ss (c_s c) - 512);
  st_rows : holds_rows f (ss (c_s c)) (difat_start (c_s c)) rows;
  st_fat : holds_table f (ss (c_s c)) (fat_sectors (difat (c_s c))) (fat (c_s c));
  st_mf : holds_table f (ss (c_s c)) mch (minifat (c_s c)) }.

Lemma Stored_same : forall P f f' c row0 rows mch, Tables c row0 rows mch -> same_out (ss (c_s c)) P f f' -> ~ P (-1) ->
  (forall x, In x (table_sectors (c_s c) rows mch) -> ~ P x) -> Stored f c row0 rows mch -> Stored f' c row0 rows mch.
Proof.
  intros P f f' c row0 rows mch HT HS Hm HP [H1 H2 H3 H4].
  assert (Q : forall x, In x (table_sectors (c_s c) rows mch) -> ~ P x /\ -1 <= x) by (intros x Hx; split; [auto|apply (tb_range _ _ _ _ HT) in Hx; lia]).
  unfold table_sectors in Q. constructor.
  - rewrite (sector_bytes_same _ _ _ _ _ HS Hm) by lia. auto.
  - eapply holds_rows_same; eauto. intros x Hx. apply Q. rewrite !in_app_iff. auto.
  - eapply holds_table_same; eauto. intros x Hx. apply Q. rewrite !in_app_iff. auto.
  - eapply holds_table_same; eauto. intros x Hx. apply Q. rewrite !in_app_iff. auto.
Qed.

Lemma nthd_app2 : forall l r k, 0 <= k -> nthd (l ++ r) (zlen l + k) = nthd r k.
Proof. intros. unfold nthd. rewrite znth_app2 by lia. replace (zlen l + k - zlen l) with k by lia. auto. Qed.

Lemma fbyte_sector : forall f n x d k, 0 < n -> sector_bytes f n x = d -> 0 <= k < n -> fbyte f ((x + 1) * n + k) = nthd d k.
Proof.
  intros f n x d k Hn <- Hk. unfold sector_bytes, nthd. rewrite znth_map, znth_zseq by lia.
  cbn. reflexivity.
Qed.

(** rewriting the tail of the header with what it holds changes nothing *)
Lemma fwrite_again : forall f n x a d, 0 < n -> -1 <= x -> sector_bytes f n x = a ++ d -> zlen a + zlen d = n ->
  forall p, fbyte (fwrite f ((x + 1) * n + zlen a) d) p = fbyte f p.
Proof.
  intros f n x a d Hn Hx H Hl p. pose proof (zlen_nonneg _ a). pose proof (zlen_nonneg _ d). rewrite fbyte_fwrite by nia.
  destruct (((x + 1) * n + zlen a <=? p) && (p <? (x + 1) * n + zlen a + zlen d)) eqn:E; auto.
  replace p with ((x + 1) * n + (zlen a + (p - (x + 1) * n - zlen a))) at 2 by lia.
  rewrite (fbyte_sector _ _ _ _ _ Hn H) by lia. rewrite nthd_app2 by lia. f_equal. lia.
Qed.

Lemma ss_facts : forall n, n = 512 \/ n = 4096 -> 0 < n /\ n mod 4 = 0 /\ 512 <= n.
Proof. intros n [-> | ->]; repeat split; reflexivity || lia. Qed.

Lemma zlen_zeros_sub : forall n, 0 <= n -> zlen (zeros n) = n.
Proof. intros. unfold zeros, zlen. rewrite repeat_length. lia. Qed.

Lemma write_tables_ok : forall c row0 rows mch, Tables c row0 rows mch ->
  exists f, write_tables c = Ok f /\
    same_out (ss (c_s c)) (fun x => x = -1 \/ In x (table_sectors (c_s c) rows mch)) (file (c_s c)) f /\
    Stored f c row0 rows mch /\ ss (c_s c) <= zlen f /\ (forall x, In x (table_sectors (c_s c) rows mch) -> (x + 2) * ss (c_s c) <= zlen f).
Proof.
  intros c row0 rows mch HT. pose proof (tb_hdr _ _ _ _ HT) as HH.
  assert (Hss : ss (c_s c) = 512 \/ ss (c_s c) = 4096) by (destruct HH as (_ & _ & _ & H & _); exact H).
  destruct (ss_facts _ Hss) as (Hn & Hm & H512). set (n := ss (c_s c)) in *. set (s := c_s c) in *.
  assert (Hcl : zlen (h_class (header_of c)) = 16) by apply HH.
  assert (Hd : zlen row0 = 109 /\ Forall u32 row0).
  { destruct HH as (_ & _ & _ & _ & _ & _ & _ & _ & _ & _ & _ & _ & _ & _ & Q1 & Q2). cbn [h_difat header_of] in Q1, Q2.
    fold s in Q1, Q2. rewrite (tb_difat _ _ _ _ HT : difat s = row0 :: rows) in Q1, Q2. cbn [hd] in Q1, Q2. auto. }
  destruct Hd as [Hd1 Hd2].
  pose proof (tb_nodup _ _ _ _ HT) as ND. pose proof (tb_range _ _ _ _ HT) as RG. unfold table_sectors in ND, RG. fold s in ND, RG.
  apply NoDup_app_iff in ND. destruct ND as (ND1 & ND2 & ND3). apply NoDup_app_iff in ND2. destruct ND2 as (ND2 & ND4 & ND5).
  unfold write_tables. fold s. fold n. rewrite (header_bytes_ok _ HH). cbn [bind].
  assert (Edf : h_difat (header_of c) = row0) by (cbn; fold s; rewrite (tb_difat _ _ _ _ HT : difat s = row0 :: rows); reflexivity).
  assert (Ess : h_ss (header_of c) = n) by reflexivity. rewrite Edf, Ess.
  set (hb := head76 (header_of c) ++ words row0 ++ zeros (n - 512)).
  assert (Lhb : zlen hb = n). { unfold hb. rewrite !zlen_app, zlen_head76, zlen_words, Hd1, zlen_zeros_sub by (auto; lia). lia. }
  set (f1 := fwrite (file s) 0 hb).
  assert (Sh1 : sector_bytes f1 n (-1) = hb) by (apply (sector_bytes_fwrite (file s) n (-1) hb); auto; lia).
  assert (So1 : same_out n (fun x => x = -1) (file s) f1) by (apply (fwrite_sector (file s) n (-1) hb); auto; lia).
  assert (L1 : n <= zlen f1).
  { destruct (zlen_fwrite_ge (file s) 0 hb ltac:(lia)) as [_ G]. fold f1 in G. rewrite Lhb in G. apply G. intros Ee. rewrite Ee in Lhb. change (zlen (@nil Z)) with 0 in Lhb. lia. }
  unfold write_difat. rewrite (tb_difat _ _ _ _ HT : difat s = row0 :: rows). cbn [hd tl].
  replace (109 <=? zlen row0) with true by lia. rewrite ztake_all by lia. rewrite pack_words by auto. cbn [bind].
  rewrite zlen_words, Hd1. replace (n - (76 + 4 * 109)) with (n - 512) by lia.
  set (f2 := fwrite f1 76 (words row0 ++ zeros (n - 512))).
  assert (Same2 : forall p, fbyte f2 p = fbyte f1 p).
  { intros p. unfold f2. rewrite <- (fwrite_again f1 n (-1) (head76 (header_of c)) (words row0 ++ zeros (n - 512)) Hn ltac:(lia) Sh1) at 1.
    - rewrite zlen_head76 by auto. reflexivity.
    - rewrite <- zlen_app. exact Lhb. }
  assert (Sh2 : sector_bytes f2 n (-1) = hb) by (rewrite <- Sh1; unfold sector_bytes; apply map_ext; intros; apply Same2).
  assert (So2 : same_out n (fun x => x = -1) (file s) f2) by (intros x k Hx Hx1 Hk; rewrite Same2; apply So1; auto).
  assert (L2 : n <= zlen f2) by (destruct (zlen_fwrite_ge f1 76 (words row0 ++ zeros (n - 512)) ltac:(lia)) as [G _]; fold f2 in G; lia).
  assert (HR : exists f3, (if difat_cnt s =? 0 then Ok f2 else guard (zlen rows =? difat_cnt s) else AssertionError ;; write_rows f2 n (difat_start s) rows) = Ok f3 /\
     same_out n (fun x => In x (difat_sectors (difat_start s) rows)) f2 f3 /\ holds_rows f3 n (difat_start s) rows /\ zlen f2 <= zlen f3 /\
     forall x, In x (difat_sectors (difat_start s) rows) -> (x + 2) * n <= zlen f3).
  { pose proof (tb_cnt _ _ _ _ HT) as Ec. fold s in Ec. destruct (difat_cnt s =? 0) eqn:E0.
    - assert (rows = []) as -> by (apply zlen_zero_iff; lia). exists f2. split; auto. split; [apply same_out_refl|]. split; [exact I|]. split; [lia|]. intros x [].
    - rewrite Ec, Z.eqb_refl. apply write_rows_ok; auto.
      + intros x Hx. apply RG. rewrite !in_app_iff. auto.
      + apply (tb_rowlen _ _ _ _ HT).
      + apply (tb_rowu _ _ _ _ HT). }
  destruct HR as (f3 & E3 & So3 & Hr3 & L3 & Le3). rewrite E3. cbn [bind].
  unfold write_fat.
  assert (Hfl := tb_fatlen _ _ _ _ HT). fold s in Hfl. fold n in Hfl.
  assert (H4 : n = 4 * (n / 4)) by (rewrite <- Z_div_exact_full_2; lia).
  assert (Efl : zlen (fat s) * 4 = zlen (fat_sectors (difat s)) * n) by (rewrite Hfl; nia).
  rewrite <- (tb_difat _ _ _ _ HT : difat s = row0 :: rows). rewrite Efl, Z_mod_mult, Z_div_mult, !Z.eqb_refl by lia.
  destruct (write_table_ok n (fat_sectors (difat s)) f3 (fat s)) as (f4 & E4 & So4 & Ht4 & L4 & Le4); auto.
  { intros x Hx. apply RG. rewrite !in_app_iff. auto. }
  { apply (tb_fatu _ _ _ _ HT). }
  rewrite E4. cbn [bind]. unfold write_minifat. fold s. 
  rewrite (tb_mch _ _ _ _ HT : get_fat_chain (fat s) (Some (minifat_start s)) = Ok mch). cbn [bind].
  destruct (write_table_ok n mch f4 (minifat s)) as (f5 & E5 & So5 & Ht5 & L5 & Le5); auto.
  { intros x Hx. apply RG. rewrite !in_app_iff. auto. }
  { apply (tb_mlen _ _ _ _ HT). } { apply (tb_mu _ _ _ _ HT). }
  exists f5. split; [exact E5|].
  assert (Dj : forall x, In x (table_sectors s rows mch) -> 0 <= x) by (intros x Hx; apply RG in Hx; lia).
  split; [|split; [|split]].
  - eapply same_out_weak; [|eapply same_out_trans; [exact So2|eapply same_out_trans; [exact So3|eapply same_out_trans; [exact So4|exact So5]]]].
    intros x Hx. cbn in Hx. unfold table_sectors. rewrite !in_app_iff. tauto.
  - assert (N1 : forall x, In x (fat_sectors (difat s)) -> ~ In x (difat_sectors (difat_start s) rows) /\ ~ In x mch).
    { intros x Hx. specialize (ND3 x Hx). rewrite in_app_iff in ND3. tauto. }
    constructor.
    + fold s. fold n. rewrite (sector_bytes_same _ _ _ _ _ So5), (sector_bytes_same _ _ _ _ _ So4), (sector_bytes_same _ _ _ _ _ So3); auto; try lia;
      intros Hx; (assert (0 <= -1); [apply Dj; unfold table_sectors; rewrite !in_app_iff; auto|lia]).
    + fold s. fold n. eapply holds_rows_same; [exact So5| |eapply holds_rows_same; [exact So4| |exact Hr3]].
      * intros x Hx. split; [apply ND5; auto|]. enough (0 <= x) by lia. apply Dj; unfold table_sectors; rewrite !in_app_iff; auto.
      * intros x Hx. split; [intros Hy; exact (proj1 (N1 x Hy) Hx)|]. enough (0 <= x) by lia. apply Dj; unfold table_sectors; rewrite !in_app_iff; auto.
    + fold s. fold n. eapply holds_table_same; [exact So5| |exact Ht4].
      intros x Hx. split; [apply N1; auto|]. enough (0 <= x) by lia. apply Dj; unfold table_sectors; rewrite !in_app_iff; auto.
    + exact Ht5.
  - lia.
  - intros x Hx. unfold table_sectors in Hx. rewrite !in_app_iff in Hx. destruct Hx as [Hx|[Hx|Hx]].
    + specialize (Le4 x Hx). lia.
    + specialize (Le3 x Hx). lia.
    + auto.
Qed.

Lemma read_tables_ok : forall c row0 rows mch f, Tables c row0 rows mch -> Stored f c row0 rows mch -> ss (c_s c) <= zlen f ->
  (forall x, In x (table_sectors (c_s c) rows mch) -> (x + 2) * ss (c_s c) <= zlen f) ->
  read_tables f = Ok (mktab (header_of c) (difat (c_s c)) (fat (c_s c)) (free_from 0 (fat (c_s c)))
    (zlen (fat_sectors (difat (c_s c)))) mch (minifat (c_s c)) (free_from 0 (minifat (c_s c)))).
Proof.
  intros c row0 rows mch f HT HS L0 LE. pose proof (tb_hdr _ _ _ _ HT) as HH.
  assert (Hss : ss (c_s c) = 512 \/ ss (c_s c) = 4096) by (destruct HH as (_ & _ & _ & H & _); exact H).
  destruct (ss_facts _ Hss) as (Hn & Hm & H512). set (n := ss (c_s c)) in *. set (s := c_s c) in *.
  pose proof (tb_range _ _ _ _ HT) as RG. unfold table_sectors in RG, LE. fold s in RG, LE.
  unfold read_tables. assert (Ef : f = head76 (header_of c) ++ words row0 ++ zeros (n - 512) ++ zdrop n f).
  { rewrite <- (zdrop_0 _ ((-1 + 1) * n) f) at 1 by lia. rewrite zdrop_sector by lia.
    rewrite (st_hdr _ _ _ _ _ HS : sector_bytes f n (-1) = _). rewrite <- !app_assoc. fold s. fold n. replace ((-1 + 2) * n) with n by lia. reflexivity. }
  assert (Edf : h_difat (header_of c) = row0) by (cbn; fold s; rewrite (tb_difat _ _ _ _ HT : difat s = row0 :: rows); reflexivity).
  assert (Eh : parse_header f = Ok (header_of c)).
  { rewrite Ef. rewrite <- Edf at 1. apply parse_header_ok. auto. }
  rewrite Eh. cbn [bind].
  assert (Er : read_rows (Z.to_nat (h_df_cnt (header_of c))) f (h_ss (header_of c)) (h_df_start (header_of c)) = Ok rows).
  { cbn [h_df_cnt h_ss h_df_start header_of]. fold s. fold n. rewrite <- (tb_cnt _ _ _ _ HT : zlen rows = difat_cnt s). unfold zlen. rewrite Nat2Z.id.
    apply read_rows_ok; auto.
    - intros x Hx. split; [apply RG|apply LE]; rewrite !in_app_iff; auto.
    - apply (tb_rowlen _ _ _ _ HT).
    - apply (tb_rowu _ _ _ _ HT).
    - apply (st_rows _ _ _ _ _ HS). }
  rewrite Er. cbn [bind]. rewrite Edf. rewrite <- (tb_difat _ _ _ _ HT : difat s = _).
  change (h_ss (header_of c)) with n. change (h_mf_start (header_of c)) with (minifat_start s).
  rewrite (read_table_ok n (fat_sectors (difat s)) f (fat s)); auto.
  - cbn [bind]. rewrite (tb_mch _ _ _ _ HT : get_fat_chain (fat s) (Some (minifat_start s)) = Ok mch). cbn [bind].
    rewrite (read_table_ok n mch f (minifat s)); auto.
    + intros x Hx. split; [apply RG|apply LE]; rewrite !in_app_iff; auto.
    + apply (tb_mlen _ _ _ _ HT).
    + apply (tb_mu _ _ _ _ HT).
    + apply (st_mf _ _ _ _ _ HS).
  - intros x Hx. split; [apply RG|apply LE]; rewrite !in_app_iff; auto.
  - apply (tb_fatlen _ _ _ _ HT).
  - apply (tb_fatu _ _ _ _ HT).
  - apply (st_fat _ _ _ _ _ HS).
Qed.
