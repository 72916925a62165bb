(** C72: the values of MXF header metadata are decoded as they were written. *)
From Verif Require Import Base BaseFacts Codec CodecFacts Text TextFacts IdsModel IdsFacts TypesModel TypesFacts MxfModel.
From Coq Require Import ZArith List Bool String Lia.
Import ListNotations.
Open Scope Z_scope.

Lemma zlen_be : forall n v, zlen (be_bytes n v) = Z.of_nat n.
Proof. intros. unfold zlen. rewrite be_bytes_length. reflexivity. Qed.
Lemma take_exact : forall (a b : list Z) n, zlen a = n -> ztake n (a ++ b) = a.
Proof. intros a b n <-. apply ztake_app_exact. Qed.
Lemma drop_exact : forall (a b : list Z) n, zlen a = n -> zdrop n (a ++ b) = b.
Proof. intros a b n <-. apply zdrop_app_exact. Qed.
Lemma rdb_be : forall n v r, rdb n (be_bytes n v ++ r) = Ok (v mod 256 ^ Z.of_nat n, r).
Proof.
  intros n v r. unfold rdb. rewrite take_exact, drop_exact by apply zlen_be. rewrite zlen_be, Z.eqb_refl, be_val_be_bytes. reflexivity.
Qed.
(** an Int32, big endian *)
Definition s32 (v : Z) : list Z := be_bytes 4 (v mod 2 ^ 32).
Definition is_s32 (v : Z) : Prop := - 2 ^ 31 <= v < 2 ^ 31.
Lemma rdb_s32_ok : forall v r, is_s32 v -> rdb_s32 (s32 v ++ r) = Ok (v, r).
Proof.
  intros v r H. unfold rdb_s32, s32. rewrite rdb_be. cbn [bind fst snd]. do 2 f_equal. unfold is_s32 in H. change (256 ^ Z.of_nat 4) with (2 ^ 32). rewrite Z.mod_mod by lia.
  unfold to_signed. change (256 ^ Z.of_nat 4) with (2 ^ 32). change (2 ^ 32 / 2) with (2 ^ 31). destruct (Z.ltb_spec v 0).
  - assert (v mod 2 ^ 32 = v + 2 ^ 32) as -> by (symmetry; apply Z.mod_unique_pos with (-1); lia). destruct (Z.ltb_spec (v + 2 ^ 32) (2 ^ 31)); lia.
  - rewrite Z.mod_small by lia. destruct (Z.ltb_spec v (2 ^ 31)); lia.
Qed.

(** ** References *)
Lemma of_be_auid : forall n, 0 <= n < 2 ^ 128 -> auid (auid_of_be (be_bytes 16 n)) /\ auid_int (auid_of_be (be_bytes 16 n)) = n.
Proof.
  intros n H. pose proof (be_bytes_auid n) as A. unfold auid_of_be. split; [apply swap_auid; exact A|]. rewrite auid_int_be by (apply swap_auid; exact A). rewrite swap_swap by apply A. rewrite be_val_be_bytes. apply Z.mod_small. exact H.
Qed.
Lemma read_refs_ok : forall ns r, Forall (fun n => 0 <= n < 2 ^ 128) ns ->
  exists l, read_refs (List.length ns) (flat_map (be_bytes 16) ns ++ r) = map Some l /\ Forall auid l /\ map auid_int l = ns.
Proof.
  induction ns as [|n ns IH]; intros r H; [exists []; repeat split; constructor|]. inversion H as [|? ? H1 H2]; subst. destruct (IH r H2) as (l & E & A & V). destruct (of_be_auid n H1) as [A1 V1].
  exists (auid_of_be (be_bytes 16 n) :: l). cbn [List.length flat_map read_refs map]. rewrite <- app_assoc. unfold read_strongref. rewrite take_exact, drop_exact by apply zlen_be. rewrite zlen_be.
  cbn [fst snd]. change (Z.of_nat 16 =? 0) with false. cbn iota. rewrite E. repeat split; [constructor; auto|congruence].
Qed.
(** An array of references: the count, the size of an item, and the identifiers, most significant byte first. *)
Theorem C72_refs : forall ns size r, zlen ns < 2 ^ 32 -> Forall (fun n => 0 <= n < 2 ^ 128) ns ->
  exists l, decode_strong_ref_array (be_bytes 4 (zlen ns) ++ be_bytes 4 size ++ flat_map (be_bytes 16) ns ++ r) = Ok (map Some l) /\ Forall auid l /\ map auid_int l = ns.
Proof.
  intros ns size r L H. unfold decode_strong_ref_array. rewrite rdb_be. cbn [bind fst snd]. rewrite drop_exact by apply zlen_be. change (256 ^ Z.of_nat 4) with (2 ^ 32). pose proof (zlen_nonneg _ ns). rewrite Z.mod_small by lia.
  unfold zlen. rewrite Nat2Z.id. destruct (read_refs_ok ns r H) as (l & E & A). exists l. rewrite E. auto.
Qed.
Print Assumptions C72_refs.
(** Missing items are not an error: each of them reads as None. *)
Lemma read_refs_none : forall n, read_refs n [] = repeat None n.
Proof. induction n as [|n IH]; [reflexivity|]. cbn [read_refs]. unfold read_strongref. cbn [fst snd]. change (ztake 16 []) with (@nil Z). change (zdrop 16 []) with (@nil Z). rewrite IH. reflexivity. Qed.
Theorem C72_refs_refuted : forall n, 0 <= n < 2 ^ 32 -> decode_strong_ref_array (be_bytes 4 n) = Ok (repeat None (Z.to_nat n)).
Proof.
  intros n H. unfold decode_strong_ref_array. pose proof (rdb_be 4 n []) as R. rewrite app_nil_r in R. rewrite R. cbn [bind fst snd]. change (256 ^ Z.of_nat 4) with (2 ^ 32). rewrite Z.mod_small by lia. change (zdrop 4 []) with (@nil Z). rewrite read_refs_none. reflexivity.
Qed.
Print Assumptions C72_refs_refuted.

(** ** Rationals: two Int32. *)
Theorem C72_rational : forall n d r, is_s32 n -> is_s32 d -> exists n' d', decode_rational (s32 n ++ s32 d ++ r) = Ok (n', d') /\ (n' = n <-> 0 <= n) /\ (d' = d <-> 0 <= d) /\ n' mod 2 ^ 32 = n mod 2 ^ 32 /\ d' mod 2 ^ 32 = d mod 2 ^ 32.
Proof.
  intros n d r Hn Hd. unfold decode_rational, s32, is_s32 in *. rewrite rdb_be. cbn [bind fst snd]. rewrite rdb_be. cbn [bind fst snd]. eexists _, _. split; [reflexivity|]. change (256 ^ Z.of_nat 4) with (2 ^ 32). rewrite !Z.mod_mod by lia.
  pose proof (Z.mod_pos_bound n (2 ^ 32)). pose proof (Z.mod_pos_bound d (2 ^ 32)). repeat split; try lia; intros Q; apply Z.mod_small; lia.
Qed.
Print Assumptions C72_rational.
Theorem C72_rational_refuted : exists n d, is_s32 n /\ is_s32 d /\ decode_rational (s32 n ++ s32 d) <> Ok (n, d).
Proof. exists (-1), 25. unfold is_s32. repeat split; try lia. vm_compute. discriminate. Qed.
Print Assumptions C72_rational_refuted.

(** ** Video line maps: the first two numbers, zero for those that are missing; another item size gives nothing. *)
Theorem C72_line_map : forall l r, zlen l < 2 ^ 32 -> Forall is_s32 l ->
  decode_video_line_map (be_bytes 4 (zlen l) ++ be_bytes 4 4 ++ flat_map s32 l ++ r) = Ok (firstn 2 (l ++ [0; 0])).
Proof.
  intros l r L H. unfold decode_video_line_map. pose proof (zlen_nonneg _ l) as P. rewrite rdb_be. cbn [bind fst snd]. rewrite rdb_be. cbn [bind fst snd]. change (256 ^ Z.of_nat 4) with (2 ^ 32). rewrite (Z.mod_small (zlen l)) by lia.
  change (4 mod 2 ^ 32 =? 4) with true. cbn iota. destruct l as [|a [|b l]].
  - reflexivity.
  - change (0 <? zlen [a]) with true. change (1 <? zlen [a]) with false. cbn iota. cbn [flat_map]. rewrite <- app_assoc, rdb_s32_ok by (inversion H; assumption). reflexivity.
  - pose proof (zlen_nonneg _ l) as P2. assert (E : zlen (a :: b :: l) = 2 + zlen l) by (unfold zlen; cbn [List.length]; lia). rewrite E. replace (0 <? 2 + zlen l) with true by lia. replace (1 <? 2 + zlen l) with true by lia. cbn iota.
    inversion H as [|? ? Ha H']; subst. inversion H' as [|? ? Hb _]; subst. cbn [flat_map]. rewrite <- !app_assoc, rdb_s32_ok by exact Ha. cbn [bind fst snd]. rewrite rdb_s32_ok by exact Hb. reflexivity.
Qed.
Print Assumptions C72_line_map.
Theorem C72_line_map_size : forall n size r, 0 <= size < 2 ^ 32 -> size <> 4 -> decode_video_line_map (be_bytes 4 n ++ be_bytes 4 size ++ r) = Ok [].
Proof.
  intros n size r H N. unfold decode_video_line_map. rewrite rdb_be. cbn [bind fst snd]. rewrite rdb_be. cbn [bind fst snd]. change (256 ^ Z.of_nat 4) with (2 ^ 32). rewrite (Z.mod_small size) by lia. destruct (Z.eqb_spec size 4); [contradiction|reflexivity].
Qed.
Print Assumptions C72_line_map_size.

(** ** Pixel layouts: up to eight pairs of a code and a depth; a code of zero ends it. *)
Lemma rdb_byte : forall v r, is_byte v -> rdb 1 (v :: r) = Ok (v, r).
Proof.
  intros v r H. pose proof (rdb_be 1 v r) as R. unfold is_byte in H. change (256 ^ Z.of_nat 1) with 256 in R. rewrite Z.mod_small in R by lia. replace (be_bytes 1 v) with [v] in R; [exact R|]. unfold be_bytes. cbn. rewrite Z.mod_small by lia. reflexivity.
Qed.
Lemma read_layout_ok : forall l n r, (List.length l <= n)%nat -> Forall (fun x => is_byte (fst x) /\ is_byte (snd x) /\ fst x <> 0) l -> (List.length l = n \/ exists x r', r = 0 :: x :: r' /\ is_byte x) ->
  read_layout n (flat_map (fun x => [fst x; snd x]) l ++ r) = Ok l.
Proof.
  induction l as [|[c s] l IH]; intros n r L H E.
  - destruct n as [|n]; [reflexivity|]. destruct E as [E|(x & r' & -> & B)]; [discriminate|]. cbn [flat_map app read_layout]. rewrite rdb_byte by (unfold is_byte; lia). cbn [bind fst snd]. rewrite rdb_byte by exact B. reflexivity.
  - destruct n as [|n]; [cbn in L; lia|]. inversion H as [|? ? (H1 & H2 & H3) H4]; subst. cbn [fst snd] in *. cbn [flat_map app read_layout fst snd]. rewrite rdb_byte by exact H1. cbn [bind fst snd]. rewrite rdb_byte by exact H2. cbn [bind fst snd].
    destruct (Z.eqb_spec c 0); [contradiction|]. rewrite IH; [reflexivity|cbn in L; lia|exact H4|]. cbn [List.length] in E. destruct E as [E|E]; [left; lia|right; exact E].
Qed.
Theorem C72_layout : forall l x r, (List.length l <= 8)%nat -> Forall (fun x => is_byte (fst x) /\ is_byte (snd x) /\ fst x <> 0) l -> is_byte x ->
  decode_pixel_layout (flat_map (fun x => [fst x; snd x]) l ++ 0 :: x :: r) = Ok l.
Proof. intros l x r L H B. apply read_layout_ok; auto. right. exists x, r. auto. Qed.
Print Assumptions C72_layout.

(** ** Times: year, month, day, hour, minute, second, and a byte that is ignored. What is no time reads as the present time. *)
Definition month_ok (y m d : Z) : Prop :=
  (In m [1; 3; 5; 7; 8; 10; 12] /\ 1 <= d <= 31) \/ (In m [4; 6; 9; 11] /\ 1 <= d <= 30) \/
  (m = 2 /\ (1 <= d <= 28 \/ d = 29 /\ exists k, y = 4 * k /\ (y mod 100 <> 0 \/ exists j, y = 400 * j))).
Definition time_ok (y m d h i s : Z) : Prop := 1 <= y <= 9999 /\ month_ok y m d /\ 0 <= h < 24 /\ 0 <= i < 60 /\ 0 <= s < 60.
Lemma date_ok_spec : forall y m d h i s, date_ok y m d h i s = true <-> time_ok y m d h i s.
Proof.
  intros y m d h i s. assert (D : 1 <= m <= 12 /\ 1 <= d <= days y m <-> month_ok y m d).
  { unfold month_ok, days. destruct (Z.eqb_spec m 2) as [->|N].
    - assert (L : (y mod 4 =? 0) && (negb (y mod 100 =? 0) || (y mod 400 =? 0)) = true <-> exists k, y = 4 * k /\ (y mod 100 <> 0 \/ exists j, y = 400 * j)).
      { rewrite andb_true_iff, orb_true_iff, negb_true_iff, Z.eqb_neq, !Z.eqb_eq. split.
        - intros [A B]. exists (y / 4). split; [pose proof (Z.div_mod y 4); lia|]. destruct B as [B|B]; [left; exact B|right; exists (y / 400); pose proof (Z.div_mod y 400); lia].
        - intros (k & -> & B). split; [rewrite Z.mul_comm; apply Z.mod_mul; lia|]. destruct B as [B|(j & ->)]; [left; exact B|right; rewrite Z.mul_comm; apply Z.mod_mul; lia]. }
      destruct (_ && _) eqn:Q.
      + pose proof (proj1 L eq_refl) as K. split; [intros [_ H]; right; right; split; [reflexivity|]; destruct (Z.eq_dec d 29); [right; auto|left; lia]|].
        intros [(I & _)|[(I & _)|(_ & H)]]; [cbn in I; lia|cbn in I; lia|lia].
      + split; [intros [_ H]; right; right; split; [reflexivity|left; lia]|]. intros [(I & _)|[(I & _)|(_ & [H|[_ H]])]]; [cbn in I; lia|cbn in I; lia|lia|apply L in H; discriminate].
    - destruct (existsb (Z.eqb m) [4; 6; 9; 11]) eqn:X; cbn [existsb] in X.
      + assert (I : In m [4; 6; 9; 11]) by (cbn; lia). split; [intros [_ H]; right; left; auto|]. intros [(J & _)|[(_ & H)|(J & _)]]; [cbn in J; lia| |lia]. cbn in I. lia.
      + split; [intros [H1 H2]; left; split; [cbn; lia|exact H2]|]. intros [(J & H)|[(J & _)|(J & _)]]; [cbn in J; lia|cbn in J; lia|lia]. }
  unfold date_ok, time_ok. rewrite <- D, !andb_true_iff, !Z.leb_le, !Z.ltb_lt. tauto.
Qed.
Theorem C72_time : forall y m d h i s q r, 0 <= y < 65536 -> is_byte m -> is_byte d -> is_byte h -> is_byte i -> is_byte s -> is_byte q ->
  exists v, decode_timestamp (be_bytes 2 y ++ [m; d; h; i; s; q] ++ r) = Ok v /\ (time_ok y m d h i s -> v = Some (y, m, d, h, i, s)) /\ (~ time_ok y m d h i s -> v = None).
Proof.
  intros y m d h i s q r Hy Hm Hd Hh Hi Hs Hq. unfold is_byte in *. set (t := y * 2 ^ 48 + m * 2 ^ 40 + d * 2 ^ 32 + h * 2 ^ 24 + i * 2 ^ 16 + s * 2 ^ 8 + q).
  assert (E : be_bytes 2 y ++ [m; d; h; i; s; q] ++ r = be_bytes 8 t ++ r).
  { rewrite app_assoc. f_equal. unfold be_bytes. cbn [le_bytes rev app]. unfold t. repeat (f_equal; [Z.div_mod_to_equations; lia|]). f_equal. Z.div_mod_to_equations; lia. }
  unfold decode_timestamp. rewrite E, rdb_be. cbn [bind fst snd]. change (256 ^ Z.of_nat 8) with (2 ^ 64). rewrite Z.mod_small by (unfold t; lia).
  assert (Y : Z.shiftr t 48 = y) by (rewrite Z.shiftr_div_pow2 by lia; unfold t; Z.div_mod_to_equations; lia).
  assert (B : forall k v, 0 <= k -> (t / 2 ^ k) mod 2 ^ 8 = v -> Z.land (Z.shiftr t k) 255 = v).
  { intros k v Hk <-. change 255 with (Z.ones 8). rewrite Z.land_ones by lia. rewrite Z.shiftr_div_pow2 by lia. reflexivity. }
  rewrite Y, (B 40 m), (B 32 d), (B 24 h), (B 16 i), (B 8 s) by (try lia; unfold t; Z.div_mod_to_equations; lia).
  eexists. split; [reflexivity|]. pose proof (date_ok_spec y m d h i s) as S. destruct (date_ok y m d h i s); split; intros H; auto; [destruct H; apply S; reflexivity|apply S in H; discriminate].
Qed.
Print Assumptions C72_time.
(** Times that differ in the last byte read alike, and so do all that are none. *)
Theorem C72_time_refuted : forall y m d h i s q q' r, 0 <= y < 65536 -> is_byte m -> is_byte d -> is_byte h -> is_byte i -> is_byte s -> is_byte q -> is_byte q' ->
  decode_timestamp (be_bytes 2 y ++ [m; d; h; i; s; q] ++ r) = decode_timestamp (be_bytes 2 y ++ [m; d; h; i; s; q'] ++ r).
Proof.
  intros y m d h i s q q' r Hy Hm Hd Hh Hi Hs Hq Hq'. destruct (C72_time y m d h i s q r) as (v & -> & A & B); auto. destruct (C72_time y m d h i s q' r) as (w & -> & A' & B'); auto. f_equal.
  pose proof (date_ok_spec y m d h i s) as S. destruct (date_ok y m d h i s); [assert (T : time_ok y m d h i s) by (apply S; reflexivity); rewrite (A T), (A' T); reflexivity|].
  assert (T : ~ time_ok y m d h i s) by (intros T; apply S in T; discriminate). rewrite (B T), (B' T). reflexivity.
Qed.
Print Assumptions C72_time_refuted.

(** ** Mob identifiers *)
Lemma repr_dashed : forall a, auid a -> auid_repr a = dashed (hexs (swap_fields a)).
Proof. intros a H. rewrite <- auid_hex_hexs by exact H. unfold auid_repr, dashed, auid_hex. change (codes "-") with [45]. reflexivity. Qed.
Definition clean (v : list Z) : list Z := fold_left (fun s item => del_sub item s) [codes "urn:smpte:umid:"; codes "."; codes "-"; codes "0x"] (lower v).
Lemma set_urn_clean : forall m v w, clean v = clean w -> m_set_urn m v = m_set_urn m w.
Proof. intros m v w E. unfold clean in E. unfold m_set_urn. rewrite E. reflexivity. Qed.
Lemma clean_dashed : forall t l, (forall c, In c t -> is_hex_lower c \/ c = 45) -> filter (fun x => negb (x =? 45)) t = hexs l -> clean t = hexs l.
Proof.
  intros t l Ht Hn. unfold clean. assert (Hl : lower t = t) by (apply lower_id; intros c Hc; apply Ht in Hc; unfold is_hex_lower in Hc; lia). rewrite Hl. cbn [fold_left].
  rewrite (del_absent (codes "urn:smpte:umid:") 117) by (try (left; reflexivity); intros X; apply Ht in X; unfold is_hex_lower in X; lia).
  rewrite (del_absent (codes ".") 46) by (try (left; reflexivity); intros X; apply Ht in X; unfold is_hex_lower in X; lia).
  change (codes "-") with [45]. rewrite del_char, Hn. pose proof (hexs_lower l) as F. rewrite Forall_forall in F.
  rewrite (del_absent (codes "0x") 120); auto; [right; left; reflexivity|]. intros X; apply F in X; unfold is_hex_lower in X; lia.
Qed.
Lemma clean_urn : forall l, clean (codes "urn:smpte:umid:" ++ hexs l) = hexs l.
Proof.
  intros l. pose proof (hexs_lower l) as F. rewrite Forall_forall in F. unfold clean.
  assert (Hl : lower (codes "urn:smpte:umid:" ++ hexs l) = codes "urn:smpte:umid:" ++ hexs l).
  { apply lower_id. intros c Hc. apply in_app_or in Hc as [Hc|Hc]; [cbn in Hc; lia|apply F in Hc; unfold is_hex_lower in Hc; lia]. }
  rewrite Hl. cbn [fold_left]. rewrite del_front by discriminate.
  rewrite (del_absent (codes "urn:smpte:umid:") 117) by (try (left; reflexivity); intros X; apply F in X; unfold is_hex_lower in X; lia).
  rewrite (del_absent (codes ".") 46) by (try (left; reflexivity); intros X; apply F in X; unfold is_hex_lower in X; lia).
  rewrite (del_absent (codes "-") 45) by (try (left; reflexivity); intros X; apply F in X; unfold is_hex_lower in X; lia).
  rewrite (del_absent (codes "0x") 120); auto; [right; left; reflexivity|]. intros X; apply F in X; unfold is_hex_lower in X; lia.
Qed.
Lemma decode_mob_fields : forall d, mobid d -> decode_mob_id d = Ok (of_fields (fields_of d)).
Proof.
  intros d [B L]. unfold decode_mob_id. assert (Zl : zlen d = 32) by (unfold zlen; lia). rewrite Zl. change (32 <=? 32) with true. cbn iota.
  assert (P : d = ztake 16 d ++ zdrop 16 d) by (symmetry; apply ztake_zdrop).
  assert (A1 : auid (ztake 16 d)) by (split; [apply Forall_ztake; exact B|explode d 32; reflexivity]). assert (A2 : auid (zdrop 16 d)) by (split; [apply Forall_zdrop; exact B|explode d 32; reflexivity]).
  unfold auid_of_be. rewrite !repr_dashed by (apply swap_auid; assumption). rewrite !swap_swap by (apply A1 || apply A2).
  destruct (dashed_text (hexs (ztake 16 d))) as [D1 D2]; [rewrite hexs_length; rewrite (proj2 A1); reflexivity|apply hexs_lower|].
  destruct (dashed_text (hexs (zdrop 16 d))) as [E1 E2]; [rewrite hexs_length; rewrite (proj2 A2); reflexivity|apply hexs_lower|].
  unfold mob_of_urn. rewrite (set_urn_clean _ _ (codes "urn:smpte:umid:" ++ hexs d)).
  - apply urn_parse; auto; [intros c Hc; left; pose proof (hexs_lower d) as F; rewrite Forall_forall in F; auto|apply no_dot_hexs].
  - rewrite clean_urn. apply clean_dashed; [intros c Hc; apply in_app_or in Hc as [Hc|Hc]; auto|]. rewrite filter_app, D2, E2, <- hexs_app, <- P. reflexivity.
Qed.
(** A UMID: the label, the length, the instance, and the material number with its first three fields most significant byte first; or, if it
    is half swapped, with the other half of the number first. *)
Definition half (d : list Z) : Prop := nth 11 d 0 = 0 /\ firstn 6 (skipn 16 d) = [6; 14; 43; 52; 127; 127].
Definition mob_of (d : list Z) : list Z := firstn 16 d ++ rev (firstn 4 (skipn 16 d)) ++ rev (firstn 2 (skipn 20 d)) ++ rev (firstn 2 (skipn 22 d)) ++ skipn 24 d.
Theorem C72_mob : forall d, mobid d -> exists m, decode_mob_id d = Ok m /\ mobid m /\
  (~ half d -> m = mob_of d) /\ (half d -> m = mob_of (firstn 16 d ++ skipn 24 d ++ firstn 8 (skipn 16 d))).
Proof.
  intros d H. rewrite decode_mob_fields by exact H. eexists. split; [reflexivity|]. destruct H as [B L]. split; [apply of_fields_mobid; apply fields_of_ok; auto|].
  assert (Rv : forall l, bytes l -> le_bytes (List.length l) (be_val l) = rev l) by (intros l Q; unfold be_val; rewrite <- rev_length; apply le_bytes_le_val; apply bytes_rev; exact Q).
  assert (Hs : half_swapped (nth 11 d 0) (slice 16 24 d) = true <-> half d).
  { unfold half_swapped, half. rewrite andb_true_iff, Z.eqb_eq, zlist_eqb_eq. replace (ztake 6 (slice 16 24 d)) with (firstn 6 (skipn 16 d)) by (clear - L; explode d 32; reflexivity). reflexivity. }
  assert (Sl : forall i j, bytes (slice i j d)) by (intros; apply bytes_slice; exact B).
  assert (Ln : forall i j, 0 <= i <= j -> j <= 32 -> List.length (slice i j d) = Z.to_nat (j - i)) by (intros i j H1 H2; pose proof (slice_length d i j) as X; unfold zlen in X; rewrite L in X; lia).
  unfold fields_of. destruct (half_swapped _ _) eqn:Q; split; intros Hh; try (exfalso; first [apply Hh, Hs; reflexivity | apply Hs in Hh; discriminate]).
  - unfold of_fields. cbn [k_label k_length k_high k_mid k_low k_d1 k_d2 k_d3 k_d4].
    pose proof (Rv _ (Sl 24 28)) as R1. rewrite Ln in R1 by lia. change (Z.to_nat (28 - 24)) with 4%nat in R1. pose proof (Rv _ (Sl 28 30)) as R2. rewrite Ln in R2 by lia. change (Z.to_nat (30 - 28)) with 2%nat in R2. pose proof (Rv _ (Sl 30 32)) as R3. rewrite Ln in R3 by lia. change (Z.to_nat (32 - 30)) with 2%nat in R3.
    rewrite R1, R2, R3. clear - L. explode d 32. reflexivity.
  - unfold of_fields. cbn [k_label k_length k_high k_mid k_low k_d1 k_d2 k_d3 k_d4].
    pose proof (Rv _ (Sl 16 20)) as R1. rewrite Ln in R1 by lia. change (Z.to_nat (20 - 16)) with 4%nat in R1. pose proof (Rv _ (Sl 20 22)) as R2. rewrite Ln in R2 by lia. change (Z.to_nat (22 - 20)) with 2%nat in R2. pose proof (Rv _ (Sl 22 24)) as R3. rewrite Ln in R3 by lia. change (Z.to_nat (24 - 22)) with 2%nat in R3.
    rewrite R1, R2, R3. clear - L. explode d 32. reflexivity.
Qed.
Print Assumptions C72_mob.
(** Two UMIDs can give one MobID. *)
Theorem C72_mob_refuted : exists d e m, mobid d /\ mobid e /\ d <> e /\ decode_mob_id d = Ok m /\ decode_mob_id e = Ok m.
Proof.
  exists (repeat 0 16 ++ [6; 14; 43; 52; 127; 127; 0; 0] ++ [1; 2; 3; 4; 5; 6; 7; 8]), (repeat 0 16 ++ [1; 2; 3; 4; 5; 6; 7; 8] ++ [6; 14; 43; 52; 127; 127; 0; 0]).
  eexists. split; [|split; [|split; [|split; vm_compute; reflexivity]]]; [split; [|reflexivity]; cbn; repeat constructor; unfold is_byte; lia|split; [|reflexivity]; cbn; repeat constructor; unfold is_byte; lia|discriminate].
Qed.
Print Assumptions C72_mob_refuted.

(** ** Identifiers with their halves exchanged *)
Lemma be_val_app : forall a b, be_val (a ++ b) = be_val a * 256 ^ zlen b + be_val b.
Proof. intros a b. unfold be_val. rewrite rev_app_distr, le_val_app, zlen_rev. lia. Qed.
Lemma reverse_halves : forall a, auid a -> reverse_auid a = Ok (swap_fields (zdrop 8 (swap_fields a) ++ ztake 8 (swap_fields a))).
Proof.
  intros a H. unfold reverse_auid. rewrite auid_hex_hexs by exact H. pose proof (swap_auid a H) as [B L]. set (s := swap_fields a) in *. assert (P : s = ztake 8 s ++ zdrop 8 s) by (symmetry; apply ztake_zdrop).
  assert (E : zdrop 16 (hexs s) ++ ztake 16 (hexs s) = hexs (zdrop 8 s ++ ztake 8 s)).
  { assert (L8 : zlen (hexs (ztake 8 s)) = 16) by (rewrite zlen_hexs; clearbody s; clear - L; explode s 16; reflexivity). rewrite P at 1 2. rewrite !hexs_app. rewrite drop_exact, take_exact by exact L8. reflexivity. }
  rewrite E. apply (of_hex_text _ (hexs (zdrop 8 s ++ ztake 8 s))); auto using hexs_lower.
  - apply Forall_app. split; [apply Forall_zdrop|apply Forall_ztake]; exact B.
  - clearbody s. clear - L. explode s 16. reflexivity.
  - intros c Hc. left. pose proof (hexs_lower (zdrop 8 s ++ ztake 8 s)) as F. rewrite Forall_forall in F. auto.
  - apply filter_dash, hexs_lower.
Qed.
Theorem C72_reverse : forall a, auid a -> exists b, reverse_auid a = Ok b /\ auid b /\ reverse_auid b = Ok a /\ auid_int b = (auid_int a mod 2 ^ 64) * 2 ^ 64 + auid_int a / 2 ^ 64.
Proof.
  intros a H. rewrite reverse_halves by exact H. eexists. split; [reflexivity|]. pose proof (swap_auid a H) as S. set (s := swap_fields a) in *.
  assert (Q : auid (zdrop 8 s ++ ztake 8 s)) by (destruct S as [B L]; split; [apply Forall_app; split; [apply Forall_zdrop|apply Forall_ztake]; exact B|clearbody s; clear - L; explode s 16; reflexivity]).
  split; [apply swap_auid; exact Q|]. split.
  - rewrite reverse_halves by (apply swap_auid; exact Q). rewrite swap_swap by apply Q. f_equal. transitivity (swap_fields s); [f_equal; destruct S as [_ L]; clearbody s; clear - L; explode s 16; reflexivity|unfold s; apply swap_swap; apply H].
  - rewrite !auid_int_be by (try apply swap_auid; assumption). rewrite swap_swap by apply Q. fold s. destruct S as [B L]. assert (P : be_val s = be_val (ztake 8 s) * 256 ^ 8 + be_val (zdrop 8 s)).
    { rewrite <- (ztake_zdrop _ 8 s) at 1. rewrite be_val_app. do 2 f_equal. f_equal. clearbody s. clear - L. explode s 16. reflexivity. }
    rewrite be_val_app. assert (Z8 : zlen (ztake 8 s) = 8 /\ zlen (zdrop 8 s) = 8) by (clearbody s; clear - L; explode s 16; split; reflexivity). destruct Z8 as [Z1 Z2]. rewrite Z1, P.
    pose proof (be_val_range (ztake 8 s) ltac:(apply Forall_ztake; exact B)) as R1. pose proof (be_val_range (zdrop 8 s) ltac:(apply Forall_zdrop; exact B)) as R2. rewrite Z1 in R1. rewrite Z2 in R2. change (256 ^ 8) with (2 ^ 64) in *.
    set (x := be_val (ztake 8 s)) in *. set (z := be_val (zdrop 8 s)) in *. clearbody x z. clear - R1 R2.
    assert (M : (x * 2 ^ 64 + z) mod 2 ^ 64 = z) by (rewrite Z.add_comm, Z.mod_add by lia; apply Z.mod_small; exact R2). assert (D : (x * 2 ^ 64 + z) / 2 ^ 64 = x) by (rewrite Z.add_comm, Z.div_add by lia; rewrite Z.div_small by exact R2; lia). rewrite M, D. reflexivity.
Qed.
Print Assumptions C72_reverse.

(** ** Text *)
Definition enc_be (s : list Z) : list Z := flat_map (fun c => flat_map (be_bytes 2) (utf16_units c)) s.
Lemma enc_be_units : forall s, enc_be s = flat_map (be_bytes 2) (flat_map utf16_units s).
Proof. induction s as [|c s IH]; [reflexivity|]. unfold enc_be in *. cbn [flat_map]. rewrite IH, flat_map_app. reflexivity. Qed.
Lemma swap_be : forall s, swap_pairs (enc_be s) = enc16 s.
Proof. intros s. rewrite enc_be_units, enc16_units. induction (flat_map utf16_units s) as [|u l IH]; [reflexivity|]. cbn [flat_map]. assert (X : be_bytes 2 u = [u / 256 mod 256; u mod 256]) by reflexivity. assert (Y : le_bytes 2 u = [u mod 256; u / 256 mod 256]) by reflexivity. rewrite X, Y. cbn [app swap_pairs]. rewrite IH. reflexivity. Qed.
Lemma decode_le_text : forall s, text s -> decode_le (enc16 s) = Ok s.
Proof.
  intros s H. unfold decode_le. assert (E : zlen (enc16 s) mod 2 =? 0 = true).
  { rewrite enc16_units. apply Z.eqb_eq. induction (flat_map utf16_units s) as [|u l IH]; [reflexivity|]. cbn [flat_map]. rewrite zlen_app, zlen_le_bytes. rewrite Z.add_mod by lia. rewrite IH. reflexivity. }
  rewrite E. apply strict_text. exact H.
Qed.
(** Names: the text up to the first null character. *)
Theorem C72_name : forall s t, text s -> text t -> nul_free s -> decode_utf16be (enc_be s) = Ok s /\ decode_utf16be (enc_be (s ++ 0 :: t)) = Ok s.
Proof.
  intros s t Hs Ht N. assert (U : forall r, until_nul (s ++ 0 :: r) = s /\ until_nul s = s).
  { intros r. clear Hs. induction s as [|c s IH]; [auto|]. cbn. destruct (Z.eqb_spec c 0) as [->|]; [destruct N; left; reflexivity|]. destruct IH as [I1 I2]; [intros X; apply N; right; exact X|]. rewrite I1, I2. auto. }
  unfold decode_utf16be. rewrite !swap_be, !decode_le_text; [cbn [bind]; destruct (U t) as [-> ->]; auto| |exact Hs]. apply Forall_app. split; [exact Hs|]. constructor; [left; lia|exact Ht].
Qed.
Print Assumptions C72_name.

(** ** Tagged values: the identifier of the type with its halves exchanged, a 1, and the value *)
Definition tag_le : list Z := [76; 0; 2; 16; 1; 0; 0; 0; 0; 6; 14; 43; 52; 1; 4; 1].
Definition tag_be : list Z := [66; 1; 16; 2; 0; 0; 0; 0; 0; 6; 14; 43; 52; 1; 4; 1].
Definition tag_int : list Z := [76; 0; 7; 1; 1; 0; 0; 0; 0; 6; 14; 43; 52; 1; 4; 1].
Lemma rstrip_pad : forall s n, last s 1 <> 0 -> rstrip_nul (s ++ repeat 0 n) = s.
Proof.
  intros s n H. unfold rstrip_nul. rewrite rev_app_distr. assert (D : forall k l, drop_nul (repeat 0 k ++ l) = drop_nul l) by (induction k as [|k IH]; intros l; [reflexivity|exact (IH l)]).
  assert (R : forall k, rev (repeat 0 k) = repeat 0 k).
  { induction k as [|k IH]; [reflexivity|]. cbn [repeat rev]. rewrite IH. symmetry. apply repeat_cons. }
  rewrite R, D. destruct s as [|c s] using rev_ind; [reflexivity|]. rewrite last_last in H. rewrite rev_app_distr. cbn [rev app drop_nul]. destruct (Z.eqb_spec c 0); [contradiction|]. cbn [rev]. rewrite rev_involutive. reflexivity.
Qed.
Lemma ind_split : forall tag r : list Z, zlen tag = 16 -> ztake 16 (tag ++ r) = tag /\ zdrop 16 (tag ++ r) = r.
Proof. intros tag r H. split; [apply take_exact|apply drop_exact]; exact H. Qed.
Theorem C72_tagged : forall s n v, text s -> last s 1 <> 0 -> is_s32 v ->
  decode_indirect_value (tag_le ++ 1 :: enc16 (s ++ repeat 0 n)) = Ok (Some (IStr s)) /\
  decode_indirect_value (tag_be ++ 1 :: enc_be (s ++ repeat 0 n)) = Ok (Some (IStr s)) /\
  decode_indirect_value (tag_int ++ 1 :: le_bytes 4 (v mod 2 ^ 32)) = Ok (Some (IInt v)).
Proof.
  intros s n v Ht Hl Hv. assert (Tn : text (s ++ repeat 0 n)) by (apply Forall_app; split; [exact Ht|apply Forall_forall; intros x X; apply repeat_spec in X; subst x; left; lia]).
  unfold decode_indirect_value. split; [|split].
  - destruct (ind_split tag_le (1 :: enc16 (s ++ repeat 0 n)) eq_refl) as [-> ->]. change (zlen tag_le =? 16) with true. cbn iota. assert (R : exists t, reverse_auid (auid_of_be tag_le) = Ok t /\ is_auid t ind_le = true) by (eexists; split; vm_compute; reflexivity). destruct R as (t & -> & R). cbn [bind]. rewrite R. change (1 =? 1) with true. cbn iota. rewrite decode_le_text by exact Tn. cbn [bind]. rewrite rstrip_pad by exact Hl. reflexivity.
  - destruct (ind_split tag_be (1 :: enc_be (s ++ repeat 0 n)) eq_refl) as [-> ->]. change (zlen tag_be =? 16) with true. cbn iota. assert (R : exists t, reverse_auid (auid_of_be tag_be) = Ok t /\ is_auid t ind_le = false /\ is_auid t ind_be = true) by (eexists; split; [|split]; vm_compute; reflexivity). destruct R as (t & -> & R1 & R). cbn [bind]. rewrite R1, R. change (1 =? 1) with true. cbn iota. rewrite swap_be, decode_le_text by exact Tn. cbn [bind]. rewrite rstrip_pad by exact Hl. reflexivity.
  - destruct (ind_split tag_int (1 :: le_bytes 4 (v mod 2 ^ 32)) eq_refl) as [-> ->]. change (zlen tag_int =? 16) with true. cbn iota. assert (R : exists t, reverse_auid (auid_of_be tag_int) = Ok t /\ is_auid t ind_le = false /\ is_auid t ind_be = false /\ is_auid t ind_int = true) by (eexists; split; [|split; [|split]]; vm_compute; reflexivity). destruct R as (t & -> & R1 & R2 & R). cbn [bind]. rewrite R1, R2, R. change (1 =? 1) with true. cbn iota.
    assert (P : pack_s 4 v = Ok (le_bytes 4 (v mod 2 ^ 32))) by (apply pack_s_Ok; unfold is_s32 in Hv; split; [change (256 ^ Z.of_nat 4 / 2) with (2 ^ 31); lia|reflexivity]). rewrite (unpack_pack_s 4 v) by (try lia; exact P). reflexivity.
Qed.
Print Assumptions C72_tagged.

(** the hypotheses are met *)
Example C72_case : decode_strong_ref_array (be_bytes 4 2 ++ be_bytes 4 16 ++ be_bytes 16 5 ++ be_bytes 16 (2 ^ 100)) = Ok [Some (auid_of_be (be_bytes 16 5)); Some (auid_of_be (be_bytes 16 (2 ^ 100)))] /\
  decode_rational (s32 30000 ++ s32 1001) = Ok (30000, 1001) /\ decode_video_line_map (be_bytes 4 2 ++ be_bytes 4 4 ++ s32 (-1) ++ s32 26) = Ok [-1; 26] /\
  decode_pixel_layout [82; 8; 71; 8; 66; 8; 0; 0] = Ok [(82, 8); (71, 8); (66, 8)] /\ decode_timestamp (be_bytes 2 2024 ++ [2; 29; 23; 59; 59; 7]) = Ok (Some (2024, 2, 29, 23, 59, 59)) /\
  decode_timestamp (be_bytes 2 1900 ++ [2; 29; 0; 0; 0; 0]) = Ok None /\ decode_utf16be (enc_be [86; 128512; 49; 0; 0]) = Ok [86; 128512; 49] /\
  exists m, decode_mob_id (map Z.of_nat (seq 1 32)) = Ok m /\ m = [1; 2; 3; 4; 5; 6; 7; 8; 9; 10; 11; 12; 13; 14; 15; 16; 20; 19; 18; 17; 22; 21; 24; 23; 25; 26; 27; 28; 29; 30; 31; 32].
Proof. do 7 (split; [vm_compute; reflexivity|]). eexists. split; vm_compute; reflexivity. Qed.
