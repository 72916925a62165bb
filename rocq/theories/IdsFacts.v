(** Proofs about IdsModel.v *)
From Verif Require Import Base BaseFacts Codec CodecFacts Text TextFacts IdsModel.
From Coq Require Import ZArith List Bool String Lia.
Import ListNotations.
Open Scope Z_scope.

Tactic Notation "explode" ident(l) int_or_var(n) := do n (destruct l as [|? l]; [discriminate|]); destruct l; [|discriminate].
Ltac unbytes := repeat match goal with
  | H : bytes (_ :: _) |- _ => inversion H; clear H; subst
  | H : Forall is_byte (_ :: _) |- _ => inversion H; clear H; subst
  | H : Forall is_byte [] |- _ => clear H
  | H : bytes [] |- _ => clear H end.

Definition auid (a : list Z) : Prop := bytes a /\ List.length a = 16%nat.

Lemma swap_auid : forall a, auid a -> auid (swap_fields a).
Proof. intros a [H L]. explode a 16. unbytes. split; [|reflexivity]. cbv [swap_fields]. cbn. repeat (constructor; auto). Qed.

Lemma swap_swap : forall a, List.length a = 16%nat -> swap_fields (swap_fields a) = a.
Proof. intros a L. explode a 16. reflexivity. Qed.

Lemma auid_int_be : forall a, auid a -> auid_int a = be_val (swap_fields a).
Proof.
  intros a [H L]. explode a 16. clear H. unfold auid_int, auid_shifts. cbn [fold_left fst snd].
  rewrite !Z.shiftl_mul_pow2 by lia.
  repeat match goal with |- context [Z.to_nat ?k] => let v := eval vm_compute in (Z.to_nat k) in change (Z.to_nat k) with v end.
  cbn [nth]. unfold be_val, swap_fields.
  repeat match goal with |- context [2 ^ ?k] => let v := eval vm_compute in (2 ^ k) in change (2 ^ k) with v end.
  change (rev _) with [z14; z13; z12; z11; z10; z9; z8; z7; z5; z6; z3; z4; z; z0; z1; z2]. cbn [le_val]. lia.
Qed.

Lemma auid_int_range : forall a, auid a -> 0 <= auid_int a < 2 ^ 128.
Proof.
  intros a H. rewrite auid_int_be by auto. destruct (swap_auid a H) as [H1 L1]. pose proof (be_val_range _ H1) as R.
  unfold zlen in R. rewrite L1 in R. exact R.
Qed.

Lemma of_int_int : forall a, auid a -> auid_of_int (auid_int a) = Ok a.
Proof.
  intros a H. pose proof (auid_int_range a H) as R. destruct (swap_auid a H) as [H1 L1].
  pose proof (be_bytes_be_val _ H1) as E. rewrite L1, <- auid_int_be in E by auto. unfold auid_of_int.
  destruct (auid_int a =? 0) eqn:E0.
  - apply Z.eqb_eq in E0. rewrite E0 in E. f_equal. rewrite <- (swap_swap a) by apply H. rewrite <- E. reflexivity.
  - replace ((0 <=? auid_int a) && (auid_int a <? 2 ^ 128)) with true by lia. rewrite E. f_equal. apply swap_swap. apply H.
Qed.

Lemma be_bytes_auid : forall n, auid (be_bytes 16 n).
Proof. intros. split; [apply bytes_rev; apply le_bytes_bytes|apply be_bytes_length]. Qed.

Lemma int_of_int : forall n, 0 <= n < 2 ^ 128 -> exists a, auid_of_int n = Ok a /\ auid a /\ auid_int a = n.
Proof.
  intros n H. unfold auid_of_int. destruct (n =? 0) eqn:E0.
  - apply Z.eqb_eq in E0. subst. exists (repeat 0 16). split; auto. split; [|reflexivity].
    split; [|reflexivity]. cbn. repeat constructor; unfold is_byte; lia.
  - replace ((0 <=? n) && (n <? 2 ^ 128)) with true by lia. eexists. split; [reflexivity|].
    pose proof (be_bytes_auid n) as Hb. split; [apply swap_auid; auto|]. rewrite auid_int_be by (apply swap_auid; auto).
    rewrite swap_swap by apply Hb. rewrite be_val_be_bytes. apply Z.mod_small. exact H.
Qed.

Lemma auid_hex_hexs : forall a, auid a -> auid_hex a = hexs (swap_fields a).
Proof.
  intros a H. destruct (swap_auid a H) as [H1 L1]. pose proof (auid_int_range a H) as R. unfold auid_hex.
  rewrite hex_pad_hexw by (try lia; exact R). rewrite auid_int_be by auto.
  change 32%nat with (2 * 16)%nat. rewrite (hexw_be 16 (be_val (swap_fields a))). rewrite <- L1 at 1. rewrite be_bytes_be_val by auto. auto.
Qed.

Lemma lower_not_in : forall s c, Forall is_hex_lower s -> ~ is_hex_lower c -> ~ In c s.
Proof. intros s c H N X. rewrite Forall_forall in H. auto. Qed.

Ltac not_hex := unfold is_hex_lower; lia.

(** text made of digits and dashes *)
Lemma of_hex_text : forall s h b, Forall is_hex_lower h -> bytes b -> h = hexs b -> List.length b = 16%nat ->
  (forall c, In c s -> is_hex_lower c \/ c = 45) -> filter (fun x => negb (x =? 45)) s = h ->
  auid_of_hex s = Ok (swap_fields b).
Proof.
  intros s h b Hh Hb E L Hs Hf. unfold auid_of_hex.
  assert (N : forall c, c <> 45 -> ~ is_hex_lower c -> ~ In c s) by (intros c N1 N2 X; apply Hs in X; tauto).
  rewrite (del_absent (codes "urn:") 117) by (cbn; auto; apply N; (lia || not_hex)).
  rewrite (del_absent (codes "uuid:") 117) by (cbn; auto; apply N; (lia || not_hex)).
  rewrite strip_id by (intros c Hc X; change (codes "{}") with [123; 125] in X; destruct X as [X|[X|[]]]; subst c; revert Hc; apply N; try not_hex; lia).
  change (codes "-") with [45]. rewrite del_char, Hf, E. rewrite zlen_hexs. unfold zlen. rewrite L. cbn [Z.of_nat Z.mul Z.eqb].
  replace (2 * Z.of_nat 16 =? 32) with true by reflexivity. rewrite fromhex_hexs by auto. reflexivity.
Qed.

Lemma filter_dash : forall h, Forall is_hex_lower h -> filter (fun x => negb (x =? 45)) h = h.
Proof.
  induction 1 as [|c h Hc _ IH]; auto. cbn. replace (c =? 45) with false by (unfold is_hex_lower in Hc; lia). cbn. rewrite IH. auto.
Qed.

Lemma of_hex_hex : forall a, auid a -> auid_of_hex (auid_hex a) = Ok a.
Proof.
  intros a H. destruct (swap_auid a H) as [H1 L1]. rewrite auid_hex_hexs by auto.
  rewrite (of_hex_text _ (hexs (swap_fields a)) (swap_fields a)); auto; try apply hexs_lower.
  - rewrite swap_swap by apply H. auto.
  - intros c Hc. left. pose proof (hexs_lower (swap_fields a)) as F. rewrite Forall_forall in F. auto.
  - apply filter_dash. apply hexs_lower.
Qed.

Definition dashed (h : list Z) : list Z :=
  slice 0 8 h ++ [45] ++ slice 8 12 h ++ [45] ++ slice 12 16 h ++ [45] ++ slice 16 20 h ++ [45] ++ zdrop 20 h.

Lemma dashed_text : forall h, List.length h = 32%nat -> Forall is_hex_lower h ->
  (forall c, In c (dashed h) -> is_hex_lower c \/ c = 45) /\ filter (fun x => negb (x =? 45)) (dashed h) = h.
Proof.
  intros h L F. assert (P : slice 0 8 h ++ slice 8 12 h ++ slice 12 16 h ++ slice 16 20 h ++ zdrop 20 h = h).
  { explode h 32. reflexivity. }
  assert (Hin : forall l, (forall c, In c l -> In c h) -> Forall is_hex_lower l).
  { intros l Hl. apply Forall_forall. intros c Hc. rewrite Forall_forall in F. auto. }
  assert (F' := F). rewrite <- P in F'. repeat (apply Forall_app in F'; destruct F' as [? F']).
  unfold dashed. split.
  - intros c Hc. repeat (apply in_app_or in Hc; destruct Hc as [Hc|Hc]); try (destruct Hc as [Hc|[]]; auto);
    left; repeat match goal with H : Forall is_hex_lower _ |- _ => rewrite Forall_forall in H end; auto.
  - rewrite !filter_app. change (filter (fun x => negb (x =? 45)) [45]) with (@nil Z). cbn [app].
    rewrite !filter_dash by auto. exact P.
Qed.

Lemma of_hex_repr : forall a, auid a -> auid_of_hex (auid_repr a) = Ok a.
Proof.
  intros a H. destruct (swap_auid a H) as [H1 L1]. assert (Er : auid_repr a = dashed (auid_hex a)) by (unfold auid_repr, dashed, auid_hex; change (codes "-") with [45]; reflexivity). rewrite Er. clear Er. rewrite auid_hex_hexs by auto.
  destruct (dashed_text (hexs (swap_fields a))) as [D1 D2]; [rewrite hexs_length, L1; reflexivity|apply hexs_lower|].
  rewrite (of_hex_text _ (hexs (swap_fields a)) (swap_fields a)); auto; try apply hexs_lower.
  rewrite swap_swap by apply H. auto.
Qed.

(** text of either case parses to the same identifier as its lower case form *)
Definition hexdig (c : Z) : Prop := exists v, hex_val c = Some v.
Lemma hexdig_cases : forall c, hexdig c -> 48 <= c <= 57 \/ 97 <= c <= 102 \/ 65 <= c <= 70.
Proof.
  intros c [v H]. unfold hex_val in H. destruct ((48 <=? c) && (c <=? 57)) eqn:E1; [lia|].
  destruct ((97 <=? c) && (c <=? 102)) eqn:E2; [lia|]. destruct ((65 <=? c) && (c <=? 70)) eqn:E3; [lia|discriminate].
Qed.
Lemma hex_val_range : forall c v, hex_val c = Some v -> 0 <= v < 16 /\ (if (65 <=? c) && (c <=? 90) then c + 32 else c) = hex_char v.
Proof.
  intros c v H. unfold hex_val in H. unfold hex_char. destruct ((48 <=? c) && (c <=? 57)) eqn:E1.
  { injection H as <-. replace ((65 <=? c) && (c <=? 90)) with false by lia. replace (c - 48 <? 10) with true by lia. lia. }
  destruct ((97 <=? c) && (c <=? 102)) eqn:E2.
  { injection H as <-. replace ((65 <=? c) && (c <=? 90)) with false by lia. replace (c - 87 <? 10) with false by lia. lia. }
  destruct ((65 <=? c) && (c <=? 70)) eqn:E3; [|discriminate].
  injection H as <-. replace ((65 <=? c) && (c <=? 90)) with true by lia. replace (c - 55 <? 10) with false by lia. lia.
Qed.

Lemma fromhex_digits : forall n s, List.length s = (2 * n)%nat -> Forall hexdig s ->
  exists b, fromhex s = Ok b /\ bytes b /\ List.length b = n /\ hexs b = lower s.
Proof.
  induction n as [|n IH]; intros s L F.
  - destruct s; [|cbn in L; lia]. exists []. repeat split; constructor.
  - destruct s as [|c [|d s]]; try (cbn in L; lia). inversion F; subst. inversion H2; subst.
    destruct (IH s) as (b & E & Hb & Lb & Eh); [cbn in L; lia|auto|]. pose proof (hexdig_cases _ H1) as Hc.
    destruct H1 as [v Hv]. destruct H3 as [w Hw]. destruct (hex_val_range _ _ Hv) as [V1 V2]. destruct (hex_val_range _ _ Hw) as [W1 W2].
    exists (v * 16 + w :: b). cbn [fromhex]. replace (is_space c) with false by (unfold is_space; lia). rewrite Hv, Hw, E.
    split; auto. split; [constructor; auto; unfold is_byte; lia|]. split; [cbn; lia|].
    change (hexs (v * 16 + w :: b)) with (hex_char (((v * 16 + w) / 16) mod 16) :: hex_char ((v * 16 + w) mod 16) :: hexs b).
    cbn [lower map]. fold (lower s). rewrite Eh, V2, W2. f_equal; [|f_equal]; f_equal; lia.
Qed.

Lemma of_hex_any_case : forall s, List.length s = 32%nat -> Forall hexdig s ->
  exists a, auid_of_hex s = Ok a /\ auid a /\ auid_hex a = lower s.
Proof.
  intros s L F. destruct (fromhex_digits 16 s L F) as (b & E & Hb & Lb & Eh).
  assert (N : forall c, ~ (48 <= c <= 57 \/ 97 <= c <= 102 \/ 65 <= c <= 70) -> ~ In c s).
  { intros c Hc X. rewrite Forall_forall in F. apply F in X. apply hexdig_cases in X. auto. }
  exists (swap_fields b). split; [|split].
  - unfold auid_of_hex. rewrite (del_absent (codes "urn:") 117) by (cbn; auto; apply N; lia).
    rewrite (del_absent (codes "uuid:") 117) by (cbn; auto; apply N; lia).
    rewrite strip_id by (intros c Hc X; change (codes "{}") with [123; 125] in X; destruct X as [X|[X|[]]]; subst c; revert Hc; apply N; lia).
    rewrite (del_absent (codes "-") 45) by (cbn; auto; apply N; lia). unfold zlen. rewrite L. change (Z.of_nat 32 =? 32) with true. cbn iota.
    rewrite E. reflexivity.
  - apply swap_auid. split; auto.
  - rewrite auid_hex_hexs by (apply swap_auid; split; auto). rewrite swap_swap by auto. auto.
Qed.

Lemma zlist_eqb_eq : forall a b, zlist_eqb a b = true <-> a = b.
Proof.
  induction a as [|x a IH]; intros [|y b]; cbn; split; intros H; try discriminate; auto.
  - apply andb_true_iff in H. destruct H as [H1 H2]. apply Z.eqb_eq in H1. apply IH in H2. congruence.
  - injection H as <- <-. rewrite Z.eqb_refl. apply IH. auto.
Qed.

Lemma auid_int_inj : forall a b, auid a -> auid b -> auid_int a = auid_int b -> a = b.
Proof. intros a b Ha Hb E. pose proof (of_int_int a Ha) as X. rewrite E, of_int_int in X by auto. congruence. Qed.

(** ** MobID *)
Definition mobid (m : list Z) : Prop := bytes m /\ List.length m = 32%nat.

Lemma int_from_be_val : forall l len i, len - i = zlen l - 1 -> int_from_be len i l = be_val l.
Proof.
  induction l as [|b l IH]; intros len i H; auto. rewrite zlen_cons in H. cbn [int_from_be]. rewrite IH by lia.
  rewrite be_val_cons. pose proof (zlen_nonneg _ l). rewrite Z.shiftl_mul_pow2 by lia.
  replace ((len - i) * 8) with (8 * zlen l) by lia. rewrite Z.pow_mul_r by lia. reflexivity.
Qed.

Lemma m_int_val : forall m, m_int m = be_val m.
Proof. intros. unfold m_int, int_from_bytes_be. apply int_from_be_val. lia. Qed.

Lemma le_bytes_nth : forall n v i, (i < n)%nat -> nth i (le_bytes n v) 0 = (v / 256 ^ Z.of_nat i) mod 256.
Proof.
  induction n as [|n IH]; intros v i H; [lia|]. cbn [le_bytes]. destruct i as [|i]; cbn [nth].
  - cbn. rewrite Z.div_1_r. auto.
  - rewrite IH by lia. rewrite Z.div_div by (try lia; apply pow256_pos). rewrite pow256_S. auto.
Qed.

Lemma bytes_from_int_val : forall n v, bytes_from_int_be v (Z.of_nat n) = be_bytes n v.
Proof.
  intros n v. unfold bytes_from_int_be, be_bytes, zseq. rewrite Nat2Z.id, map_map.
  apply nth_ext with (d := 0) (d' := 0).
  - rewrite map_length, seq_length, rev_length, le_bytes_length. auto.
  - intros i Hi. rewrite map_length, seq_length in Hi.
    rewrite rev_nth by (rewrite le_bytes_length; auto). rewrite le_bytes_length, le_bytes_nth by lia.
    rewrite nth_indep with (d' := (fun k => Z.land (Z.shiftr v ((Z.of_nat n - 1 - (0 + Z.of_nat k)) * 8)) 255) O) by (rewrite map_length, seq_length; auto).
    rewrite (map_nth (fun k => Z.land (Z.shiftr v ((Z.of_nat n - 1 - (0 + Z.of_nat k)) * 8)) 255)). rewrite seq_nth by auto.
    change 255 with (Z.ones 8). rewrite Z.land_ones by lia. rewrite Z.shiftr_div_pow2 by lia.
    replace ((Z.of_nat n - 1 - (0 + Z.of_nat (0 + i))) * 8) with (8 * Z.of_nat (n - S i)) by lia.
    rewrite Z.pow_mul_r by lia. reflexivity.
Qed.

Lemma m_of_int_int : forall m, mobid m -> m_of_int (m_int m) = m.
Proof.
  intros m [H L]. unfold m_of_int. change 32 with (Z.of_nat 32). rewrite bytes_from_int_val, m_int_val, <- L. apply be_bytes_be_val. auto.
Qed.

Lemma m_int_of_int : forall v, m_int (m_of_int v) = v mod 2 ^ 256 /\ mobid (m_of_int v).
Proof.
  intros v. unfold m_of_int. change 32 with (Z.of_nat 32) at 1 2. rewrite bytes_from_int_val, m_int_val, be_val_be_bytes. split; [reflexivity|].
  split; [apply bytes_rev; apply le_bytes_bytes|apply be_bytes_length].
Qed.

Lemma set_byte_ok : forall m i v, is_byte v -> set_byte m i v = Ok (zupd m i v).
Proof. intros m i v H. unfold set_byte, is_byte in *. replace ((0 <=? v) && (v <? 256)) with true by lia. auto. Qed.

Lemma pack_into_ok : forall n m off v, 0 <= v < 256 ^ Z.of_nat n -> pack_into n m off v = Ok (splice off (le_bytes n v) m).
Proof. intros n m off v H. unfold pack_into. rewrite (proj2 (pack_u_Ok n v (le_bytes n v))) by auto. auto. Qed.

Lemma bytes_forallb : forall l, bytes l -> forallb (fun v => (0 <=? v) && (v <? 256)) l = true.
Proof. intros l H. apply forallb_forall. intros x Hx. unfold bytes in H. rewrite Forall_forall in H. apply H in Hx. unfold is_byte in Hx. lia. Qed.

Lemma pack_bytes_ok : forall n m off vs, zlen vs = n -> bytes vs -> pack_bytes n m off vs = Ok (splice off vs m).
Proof. intros n m off vs L H. unfold pack_bytes. rewrite bytes_forallb by auto. replace (zlen vs =? n) with true by lia. auto. Qed.

(** the values a dictionary may hold *)
Definition dict_ok (d : mdict) : Prop :=
  bytes (k_label d) /\ List.length (k_label d) = 12%nat /\ is_byte (k_length d) /\ is_byte (k_high d) /\ is_byte (k_mid d) /\ is_byte (k_low d) /\
  0 <= k_d1 d < 2 ^ 32 /\ 0 <= k_d2 d < 2 ^ 16 /\ 0 <= k_d3 d < 2 ^ 16 /\ bytes (k_d4 d) /\ List.length (k_d4 d) = 8%nat.

Definition of_fields (d : mdict) : list Z :=
  k_label d ++ [k_length d; k_high d; k_mid d; k_low d] ++ le_bytes 4 (k_d1 d) ++ le_bytes 2 (k_d2 d) ++ le_bytes 2 (k_d3 d) ++ k_d4 d.

Lemma from_dict_ok : forall m d, List.length m = 32%nat -> dict_ok d -> from_dict m d = Ok (of_fields d).
Proof.
  intros m d L (H1 & H2 & H3 & H4 & H5 & H6 & H7 & H8 & H9 & H10 & H11).
  unfold from_dict, set_length, set_high, set_mid, set_low, set_data1, set_data2, set_data3, set_data4, set_label.
  rewrite set_byte_ok by auto. cbn [bind]. rewrite set_byte_ok by auto. cbn [bind]. rewrite set_byte_ok by auto. cbn [bind]. rewrite set_byte_ok by auto. cbn [bind].
  rewrite pack_into_ok by exact H7. cbn [bind]. rewrite pack_into_ok by exact H8. cbn [bind]. rewrite pack_into_ok by exact H9. cbn [bind].
  rewrite pack_bytes_ok by (auto; unfold zlen; rewrite H11; auto). cbn [bind]. rewrite pack_bytes_ok by (auto; unfold zlen; rewrite H2; auto).
  unfold of_fields. destruct d as [lab len hi mi lo d1 d2 d3 d4]. cbn [k_label k_length k_high k_mid k_low k_d1 k_d2 k_d3 k_d4] in *.
  clear - L H2 H11. explode m 32. explode lab 12. explode d4 8. cbn [le_bytes].
  reflexivity.
Qed.

Lemma bytes_app : forall a b, bytes (a ++ b) <-> bytes a /\ bytes b.
Proof. intros. unfold bytes. apply Forall_app. Qed.

Lemma of_fields_mobid : forall d, dict_ok d -> mobid (of_fields d).
Proof.
  intros d (H1 & H2 & H3 & H4 & H5 & H6 & H7 & H8 & H9 & H10 & H11). split.
  - unfold of_fields. rewrite !bytes_app. repeat split; auto; try apply le_bytes_bytes. repeat (constructor; auto).
  - unfold of_fields. rewrite !app_length, !le_bytes_length, H2, H11. reflexivity.
Qed.

Lemma to_dict_of_fields : forall d, dict_ok d -> to_dict (of_fields d) = d.
Proof.
  intros d (H1 & H2 & H3 & H4 & H5 & H6 & H7 & H8 & H9 & H10 & H11). 
  destruct d as [lab len hi mi lo d1 d2 d3 d4]. cbn [k_label k_length k_high k_mid k_low k_d1 k_d2 k_d3 k_d4] in *.
  unfold to_dict, of_fields. cbn [k_label k_length k_high k_mid k_low k_d1 k_d2 k_d3 k_d4].
  assert (E1 : le_val (le_bytes 4 d1) = d1) by (rewrite le_val_le_bytes; apply Z.mod_small; exact H7).
  assert (E2 : le_val (le_bytes 2 d2) = d2) by (rewrite le_val_le_bytes; apply Z.mod_small; exact H8).
  assert (E3 : le_val (le_bytes 2 d3) = d3) by (rewrite le_val_le_bytes; apply Z.mod_small; exact H9).
  pose proof (le_bytes_length 4 d1) as L1. pose proof (le_bytes_length 2 d2) as L2. pose proof (le_bytes_length 2 d3) as L3.
  remember (le_bytes 4 d1) as b1. remember (le_bytes 2 d2) as b2. remember (le_bytes 2 d3) as b3.
  transitivity (mkmd lab len hi mi lo (le_val b1) (le_val b2) (le_val b3) d4); [|congruence].
  clear - H2 H11 L1 L2 L3. explode lab 12. explode d4 8. explode b1 4. explode b2 2. explode b3 2. reflexivity.
Qed.

Lemma to_dict_ok : forall m, mobid m -> dict_ok (to_dict m) /\ of_fields (to_dict m) = m.
Proof.
  intros m [H L]. unfold dict_ok, to_dict, of_fields. cbn [k_label k_length k_high k_mid k_low k_d1 k_d2 k_d3 k_d4].
  assert (P : m = m_label m ++ [m_length m; m_high m; m_mid m; m_low m] ++ slice 16 20 m ++ slice 20 22 m ++ slice 22 24 m ++ m_data4 m).
  { explode m 32. reflexivity. }
  assert (B : bytes (m_label m) /\ bytes [m_length m; m_high m; m_mid m; m_low m] /\ bytes (slice 16 20 m) /\ bytes (slice 20 22 m) /\ bytes (slice 22 24 m) /\ bytes (m_data4 m)).
  { rewrite P in H. rewrite !bytes_app in H. tauto. }
  assert (LL : List.length (m_label m) = 12%nat /\ List.length (slice 16 20 m) = 4%nat /\ List.length (slice 20 22 m) = 2%nat /\ List.length (slice 22 24 m) = 2%nat /\ List.length (m_data4 m) = 8%nat).
  { clear - L. explode m 32. repeat split. }
  destruct B as (B1 & B2 & B3 & B4 & B5 & B6). destruct LL as (L1 & L3 & L4 & L5 & L6).
  split.
  - inversion B2 as [|? ? Q1 B2a]; subst. inversion B2a as [|? ? Q2 B2b]; subst. inversion B2b as [|? ? Q3 B2c]; subst. inversion B2c as [|? ? Q4 B2d]; subst.
    pose proof (le_val_range _ B3) as R3. pose proof (le_val_range _ B4) as R4. pose proof (le_val_range _ B5) as R5.
    unfold zlen in R3, R4, R5. rewrite L3 in R3. rewrite L4 in R4. rewrite L5 in R5.
    repeat (split; auto); apply R3 || apply R4 || apply R5.
  - unfold m_data1, m_data2, m_data3.
    pose proof (le_bytes_le_val _ B3) as V3. pose proof (le_bytes_le_val _ B4) as V4. pose proof (le_bytes_le_val _ B5) as V5.
    rewrite L3 in V3. rewrite L4 in V4. rewrite L5 in V5. rewrite V3, V4, V5. symmetry. exact P.
Qed.

(** ** URN *)

(** the 32 bytes in the order in which the text shows them *)
Definition straight (d : mdict) : list Z := be_bytes 4 (k_d1 d) ++ be_bytes 2 (k_d2 d) ++ be_bytes 2 (k_d3 d) ++ k_d4 d.
Definition swapped (d : mdict) : list Z := k_d4 d ++ be_bytes 4 (k_d1 d) ++ be_bytes 2 (k_d2 d) ++ be_bytes 2 (k_d3 d).
Definition head (d : mdict) : list Z := k_label d ++ [k_length d; k_high d; k_mid d; k_low d].
Definition shown (d : mdict) : list Z := head d ++ if half_swapped (nth 11 (k_label d) 0) (k_d4 d) then swapped d else straight d.

Lemma be_bytes_bytes : forall n v, bytes (be_bytes n v).
Proof. intros. apply bytes_rev. apply le_bytes_bytes. Qed.

Lemma shown_bytes : forall d, dict_ok d -> bytes (shown d) /\ List.length (shown d) = 32%nat.
Proof.
  intros d (H1 & H2 & H3 & H4 & H5 & H6 & H7 & H8 & H9 & H10 & H11). unfold shown, head, straight, swapped. split.
  - destruct (half_swapped _ _); rewrite !bytes_app; repeat split; auto; try apply be_bytes_bytes; repeat (constructor; auto).
  - destruct (half_swapped _ _); rewrite !app_length, !be_bytes_length, H2, H11; reflexivity.
Qed.

Lemma hex_pad_byte : forall v, is_byte v -> hex_pad 2 v = hexs [v].
Proof. intros v H. rewrite hex_pad_hexw by (unfold is_byte in H; lia). reflexivity. Qed.

Lemma hex2s_hexs : forall l, bytes l -> hex2s l = hexs l.
Proof. induction 1 as [|b l Hb _ IH]; auto. change (hex2s (b :: l)) with (hex_pad 2 b ++ hex2s l). rewrite hex_pad_byte, IH by auto. reflexivity. Qed.

Lemma hex_pad_be : forall k v, (0 < k)%nat -> 0 <= v < 256 ^ Z.of_nat k -> hex_pad (2 * k) v = hexs (be_bytes k v).
Proof.
  intros k v Hk H. rewrite hex_pad_hexw.
  - apply hexw_be.
  - lia.
  - replace (Z.of_nat (2 * k)) with (2 * Z.of_nat k) by lia. rewrite Z.pow_mul_r by lia. exact H.
Qed.

Definition no_dot (s : list Z) : list Z := filter (fun x => negb (x =? 46)) s.
Lemma no_dot_hexs : forall l, no_dot (hexs l) = hexs l.
Proof.
  intros l. pose proof (hexs_lower l) as F. unfold no_dot. induction F as [|c h Hc _ IH]; auto. cbn.
  replace (c =? 46) with false by (unfold is_hex_lower in Hc; lia). cbn. rewrite IH. auto.
Qed.

(** what is left of the text after the prefix and the dots are removed *)
Lemma urn_text : forall d, dict_ok d -> exists t, m_urn (of_fields d) = codes "urn:smpte:umid:" ++ t /\
  (forall c, In c t -> is_hex_lower c \/ c = 46) /\ no_dot t = hexs (shown d).
Proof.
  intros d Hd. pose proof (to_dict_of_fields d Hd) as E. destruct Hd as (H1 & H2 & H3 & H4 & H5 & H6 & H7 & H8 & H9 & H10 & H11).
  unfold to_dict in E. destruct d as [lab len hi mi lo d1 d2 d3 d4]. set (m := of_fields _) in *. injection E as E1 E2 E3 E4 E5 E6 E7 E8 E9.
  cbn [k_label k_length k_high k_mid k_low k_d1 k_d2 k_d3 k_d4] in *. unfold m_urn. rewrite E1, E2, E3, E4, E5, E6, E7, E8, E9.
  assert (Pl : lab = slice 0 4 lab ++ slice 4 8 lab ++ slice 8 12 lab) by (clear - H2; explode lab 12; reflexivity).
  assert (Pd : d4 = slice 0 4 d4 ++ slice 4 8 d4) by (clear - H11; explode d4 8; reflexivity).
  assert (Bl : bytes (slice 0 4 lab) /\ bytes (slice 4 8 lab) /\ bytes (slice 8 12 lab)) by (rewrite Pl in H1; rewrite !bytes_app in H1; tauto).
  assert (Bd : bytes (slice 0 4 d4) /\ bytes (slice 4 8 d4)) by (rewrite Pd in H10; rewrite !bytes_app in H10; tauto).
  destruct Bl as (Bl1 & Bl2 & Bl3). destruct Bd as (Bd1 & Bd2).
  rewrite !hex2s_hexs by auto. rewrite !hex_pad_byte by auto.
  change (hex_pad 8) with (hex_pad (2 * 4)). change (hex_pad 4) with (hex_pad (2 * 2)). rewrite (hex_pad_be 4 d1), (hex_pad_be 2 d2), (hex_pad_be 2 d3) by (try lia; assumption).
  eexists. split; [reflexivity|]. split.
  - apply Forall_forall.
    assert (Fh : forall l, Forall (fun c => is_hex_lower c \/ c = 46) (hexs l)) by (intros l; eapply Forall_impl; [|apply hexs_lower]; cbn; auto).
    assert (Fd : Forall (fun c => is_hex_lower c \/ c = 46) dot) by (constructor; [right; reflexivity|constructor]).
    destruct (half_swapped _ _); rewrite !Forall_app; repeat split; auto.
  - unfold shown, head, swapped, straight. cbn [k_label k_length k_high k_mid k_low k_d1 k_d2 k_d3 k_d4].
    assert (Nd : no_dot dot = []) by reflexivity.
    assert (Na : forall a b, no_dot (a ++ b) = no_dot a ++ no_dot b) by (intros; apply filter_app).
    assert (Hl : hexs lab = hexs (slice 0 4 lab) ++ hexs (slice 4 8 lab) ++ hexs (slice 8 12 lab)) by (rewrite Pl at 1; rewrite !hexs_app; auto).
    assert (Hd : hexs d4 = hexs (slice 0 4 d4) ++ hexs (slice 4 8 d4)) by (rewrite Pd at 1; rewrite !hexs_app; auto).
    assert (Hq : hexs [len; hi; mi; lo] = hexs [len] ++ hexs [hi] ++ hexs [mi] ++ hexs [lo]) by reflexivity.
    destruct (half_swapped (nth 11 lab 0) d4); rewrite !Na, !no_dot_hexs, !Nd; rewrite !hexs_app, Hl, Hd, Hq; repeat rewrite app_nil_l; rewrite <- !app_assoc; reflexivity.
Qed.

Lemma slice_length : forall (l : list Z) i j, 0 <= i <= j -> j <= zlen l -> zlen (slice i j l) = j - i.
Proof. intros l i j H1 H2. apply zlen_slice; auto. Qed.

Lemma bytes_slice : forall l i j, bytes l -> bytes (slice i j l).
Proof.
  intros l i j H. unfold slice, ztake, zdrop, bytes in *. apply Forall_forall. intros x Hx. rewrite Forall_forall in H. apply H.
  assert (F : forall n (k : list Z), In x (firstn n k) -> In x k).
  { intros n k Hk. rewrite <- (firstn_skipn n k). apply in_or_app. auto. }
  assert (S : forall n (k : list Z), In x (skipn n k) -> In x k).
  { intros n k Hk. rewrite <- (firstn_skipn n k). apply in_or_app. auto. }
  eauto.
Qed.

Lemma slice_cons : forall (l : list Z) i j, 0 <= i < j -> j <= zlen l -> slice i j l = nth (Z.to_nat i) l 0 :: slice (i + 1) j l.
Proof.
  intros l i j H1 H2. apply znth_ext.
  - rewrite zlen_cons, !slice_length by lia. lia.
  - intros k Hk. rewrite slice_length in Hk by lia. unfold slice at 1. rewrite znth_ztake, znth_zdrop by lia.
    replace (k <? j - i) with true by lia. destruct (Z.eq_dec k 0) as [->|N].
    + cbn [znth]. rewrite Z.add_0_r. replace (znth (nth (Z.to_nat i) l 0 :: slice (i + 1) j l) 0) with (Some (nth (Z.to_nat i) l 0)).
      * unfold znth. replace ((0 <=? i) && (i <? zlen l)) with true by lia. apply nth_error_nth'. unfold zlen in H2. lia.
      * unfold znth. rewrite zlen_cons. pose proof (zlen_nonneg _ (slice (i + 1) j l)). replace ((0 <=? 0) && (0 <? 1 + zlen (slice (i + 1) j l))) with true by lia. reflexivity.
    + change (nth (Z.to_nat i) l 0 :: slice (i + 1) j l) with ([nth (Z.to_nat i) l 0] ++ slice (i + 1) j l).
      rewrite znth_app2 by (change (zlen [nth (Z.to_nat i) l 0]) with 1; lia). change (zlen [nth (Z.to_nat i) l 0]) with 1.
      unfold slice. rewrite znth_ztake, znth_zdrop by lia. replace (k - 1 <? j - (i + 1)) with true by lia. f_equal. lia.
Qed.

Lemma int16_slice : forall l i j, bytes l -> 0 <= i < j -> j <= zlen l -> int16 (slice (2 * i) (2 * j) (hexs l)) = Ok (be_val (slice i j l)).
Proof.
  intros l i j H H1 H2. rewrite slice_hexs by lia. apply int16_hexs; [apply bytes_slice; auto|].
  rewrite slice_cons by lia. discriminate.
Qed.

Lemma int16_byte : forall l i, bytes l -> 0 <= i < zlen l -> int16 (slice (2 * i) (2 * i + 2) (hexs l)) = Ok (nth (Z.to_nat i) l 0).
Proof.
  intros l i H H1. replace (2 * i + 2) with (2 * (i + 1)) by lia. rewrite int16_slice by (auto; lia). rewrite slice_cons by lia.
  replace (slice (i + 1) (i + 1) l) with (@nil Z). { unfold be_val. cbn. f_equal. lia. }
  symmetry. apply length_zero_iff_nil. pose proof (slice_length l (i + 1) (i + 1)) as L. unfold zlen in *. lia.
Qed.

Lemma hex_list_slice : forall n l i, bytes l -> 0 <= i -> i + Z.of_nat n <= zlen l -> hex_list n (hexs l) (2 * i) = Ok (slice i (i + Z.of_nat n) l).
Proof.
  induction n as [|n IH]; intros l i H H0 H1.
  - cbn [hex_list]. f_equal. symmetry. apply length_zero_iff_nil. pose proof (slice_length l i (i + Z.of_nat 0)) as L. unfold zlen in *. lia.
  - cbn [hex_list]. rewrite int16_byte by (auto; lia). cbn [bind]. replace (2 * i + 2) with (2 * (i + 1)) by lia.
    rewrite IH by (auto; lia). cbn [bind]. f_equal. rewrite (slice_cons l i) by lia. do 2 f_equal. lia.
Qed.

(** what the setter makes of the 32 bytes it reads *)
Definition fields_of (l : list Z) : mdict :=
  if half_swapped (nth 11 l 0) (slice 16 24 l)
  then mkmd (slice 0 12 l) (nth 12 l 0) (nth 13 l 0) (nth 14 l 0) (nth 15 l 0)
         (be_val (slice 24 28 l)) (be_val (slice 28 30 l)) (be_val (slice 30 32 l)) (slice 16 24 l)
  else mkmd (slice 0 12 l) (nth 12 l 0) (nth 13 l 0) (nth 14 l 0) (nth 15 l 0)
         (be_val (slice 16 20 l)) (be_val (slice 20 22 l)) (be_val (slice 22 24 l)) (slice 24 32 l).

Lemma nth_byte : forall l i, bytes l -> is_byte (nth i l 0).
Proof.
  intros l i H. destruct (Nat.lt_ge_cases i (List.length l)) as [L|L].
  - unfold bytes in H. rewrite Forall_forall in H. apply H. apply nth_In. auto.
  - rewrite nth_overflow by auto. unfold is_byte. lia.
Qed.

Lemma be_val_slice : forall l i j, bytes l -> 0 <= i <= j -> j <= zlen l -> 0 <= be_val (slice i j l) < 256 ^ (j - i).
Proof. intros l i j H H1 H2. rewrite <- (slice_length l i j) by auto. apply be_val_range. apply bytes_slice. auto. Qed.

Lemma fields_of_ok : forall l, bytes l -> List.length l = 32%nat -> dict_ok (fields_of l).
Proof.
  intros l H L. assert (Zl : zlen l = 32) by (unfold zlen; lia).
  assert (S : forall i j, 0 <= i <= j -> j <= 32 -> List.length (slice i j l) = Z.to_nat (j - i)).
  { intros i j H1 H2. pose proof (slice_length l i j) as X. unfold zlen in *. lia. }
  assert (V : forall i j n, 0 <= i <= j -> j <= 32 -> n = 8 * (j - i) -> 0 <= be_val (slice i j l) < 2 ^ n).
  { intros i j n H1 H2 E. pose proof (be_val_slice l i j H H1 ltac:(lia)) as X. rewrite E, Z.pow_mul_r by lia. exact X. }
  unfold fields_of. destruct (half_swapped _ _); unfold dict_ok; cbn [k_label k_length k_high k_mid k_low k_d1 k_d2 k_d3 k_d4];
    (split; [apply bytes_slice; auto|]); (split; [rewrite S by lia; reflexivity|]); do 4 (split; [apply nth_byte; auto|]);
    do 3 (split; [apply V; lia|]); (split; [apply bytes_slice; auto|]); rewrite S by lia; reflexivity.
Qed.

Lemma urn_parse : forall m t l, List.length m = 32%nat -> bytes l -> List.length l = 32%nat ->
  (forall c, In c t -> is_hex_lower c \/ c = 46) -> no_dot t = hexs l ->
  m_set_urn m (codes "urn:smpte:umid:" ++ t) = Ok (of_fields (fields_of l)).
Proof.
  intros m t l Lm Hb Ll Ht Hn. unfold m_set_urn.
  assert (Hlow : lower (codes "urn:smpte:umid:" ++ t) = codes "urn:smpte:umid:" ++ t).
  { apply lower_id. intros c Hc. apply in_app_or in Hc. destruct Hc as [Hc|Hc].
    - cbn in Hc. lia.
    - apply Ht in Hc. unfold is_hex_lower in Hc. lia. }
  assert (Hs : fold_left (fun s item => del_sub item s) [codes "urn:smpte:umid:"; codes "."; codes "-"; codes "0x"] (lower (codes "urn:smpte:umid:" ++ t)) = hexs l).
  { rewrite Hlow. cbn [fold_left]. rewrite del_front by discriminate.
    rewrite (del_absent (codes "urn:smpte:umid:") 117) by (try (left; reflexivity); intros X; apply Ht in X; unfold is_hex_lower in X; lia).
    change (codes ".") with [46]. rewrite del_char. change (filter (fun x => negb (x =? 46)) t) with (no_dot t). rewrite Hn.
    pose proof (hexs_lower l) as F. rewrite Forall_forall in F.
    rewrite (del_absent (codes "-") 45) by (try (left; reflexivity); intros X; apply F in X; unfold is_hex_lower in X; lia).
    rewrite (del_absent (codes "0x") 120); auto; [right; left; reflexivity|]. intros X; apply F in X; unfold is_hex_lower in X; lia. }
  rewrite Hs. clear Hs Hlow Ht Hn t. assert (Zl : zlen l = 32) by (unfold zlen; lia). rewrite zlen_hexs, Zl. change (2 * 32 =? 64) with true. cbn iota.
  pose proof (hex_list_slice 12 l 0 Hb) as G1. change (2 * 0) with 0 in G1. change (0 + Z.of_nat 12) with 12 in G1. rewrite G1 by lia. cbn [bind]. clear G1.
  unfold set_label. rewrite pack_bytes_ok by (try apply bytes_slice; auto; rewrite slice_length by lia; auto). cbn [bind].
  pose proof (int16_byte l 12 Hb) as G. change (2 * 12) with 24 in G. change (24 + 2) with 26 in G. rewrite G by lia. cbn [bind]. clear G.
  unfold set_length, set_high, set_mid, set_low. rewrite set_byte_ok by (apply nth_byte; auto). cbn [bind].
  pose proof (int16_byte l 13 Hb) as G. change (2 * 13) with 26 in G. change (26 + 2) with 28 in G. rewrite G by lia. cbn [bind]. clear G.
  rewrite set_byte_ok by (apply nth_byte; auto). cbn [bind].
  pose proof (int16_byte l 14 Hb) as G. change (2 * 14) with 28 in G. change (28 + 2) with 30 in G. rewrite G by lia. cbn [bind]. clear G.
  rewrite set_byte_ok by (apply nth_byte; auto). cbn [bind].
  pose proof (int16_byte l 15 Hb) as G. change (2 * 15) with 30 in G. change (30 + 2) with 32 in G. rewrite G by lia. cbn [bind]. clear G.
  rewrite set_byte_ok by (apply nth_byte; auto). cbn [bind].
  pose proof (hex_list_slice 6 l 16 Hb) as G1. change (2 * 16) with 32 in G1. change (16 + Z.of_nat 6) with 22 in G1. rewrite G1 by lia. cbn [bind]. clear G1.
  assert (Eh : half_swapped (nth 11 (slice 0 12 l) 0) (slice 16 22 l) = half_swapped (nth 11 l 0) (slice 16 24 l)).
  { clear - Ll. explode l 32. reflexivity. }
  rewrite Eh. unfold fields_of. unfold set_data1, set_data2, set_data3, set_data4.
  pose proof (be_val_slice l 16 20 Hb) as V1. pose proof (be_val_slice l 20 22 Hb) as V2. pose proof (be_val_slice l 22 24 Hb) as V3.
  pose proof (be_val_slice l 24 28 Hb) as V4. pose proof (be_val_slice l 28 30 Hb) as V5. pose proof (be_val_slice l 30 32 Hb) as V6.
  change (20 - 16) with 4 in V1. change (22 - 20) with 2 in V2. change (24 - 22) with 2 in V3. change (28 - 24) with 4 in V4. change (30 - 28) with 2 in V5. change (32 - 30) with 2 in V6.
  destruct (half_swapped (nth 11 l 0) (slice 16 24 l)).
  - pose proof (hex_list_slice 8 l 16 Hb) as G1. change (2 * 16) with 32 in G1. change (16 + Z.of_nat 8) with 24 in G1. rewrite G1 by lia. cbn [bind]. clear G1.
    rewrite pack_bytes_ok by (try apply bytes_slice; auto; rewrite slice_length by lia; auto). cbn [bind].
    pose proof (int16_slice l 24 28 Hb) as G. change (2 * 24) with 48 in G. change (2 * 28) with 56 in G. rewrite G by lia. cbn [bind]. clear G.
    rewrite pack_into_ok by (apply V4; lia). cbn [bind].
    pose proof (int16_slice l 28 30 Hb) as G. change (2 * 28) with 56 in G. change (2 * 30) with 60 in G. rewrite G by lia. cbn [bind]. clear G.
    rewrite pack_into_ok by (apply V5; lia). cbn [bind].
    pose proof (int16_slice l 30 32 Hb) as G. change (2 * 30) with 60 in G. change (2 * 32) with 64 in G. rewrite G by lia. cbn [bind]. clear G.
    rewrite pack_into_ok by (apply V6; lia).
    unfold of_fields. cbn [k_label k_length k_high k_mid k_low k_d1 k_d2 k_d3 k_d4]. f_equal. clear - Lm Ll.
    pose proof (le_bytes_length 4 (be_val (slice 24 28 l))) as L1. pose proof (le_bytes_length 2 (be_val (slice 28 30 l))) as L2. pose proof (le_bytes_length 2 (be_val (slice 30 32 l))) as L3.
    revert L1 L2 L3. generalize (le_bytes 4 (be_val (slice 24 28 l))) (le_bytes 2 (be_val (slice 28 30 l))) (le_bytes 2 (be_val (slice 30 32 l))).
    intros b1 b2 b3 L1 L2 L3. explode m 32. explode l 32. explode b1 4. explode b2 2. explode b3 2. reflexivity.
  - pose proof (int16_slice l 16 20 Hb) as G. change (2 * 16) with 32 in G. change (2 * 20) with 40 in G. rewrite G by lia. cbn [bind]. clear G.
    rewrite pack_into_ok by (apply V1; lia). cbn [bind].
    pose proof (int16_slice l 20 22 Hb) as G. change (2 * 20) with 40 in G. change (2 * 22) with 44 in G. rewrite G by lia. cbn [bind]. clear G.
    rewrite pack_into_ok by (apply V2; lia). cbn [bind].
    pose proof (int16_slice l 22 24 Hb) as G. change (2 * 22) with 44 in G. change (2 * 24) with 48 in G. rewrite G by lia. cbn [bind]. clear G.
    rewrite pack_into_ok by (apply V3; lia). cbn [bind].
    pose proof (hex_list_slice 8 l 24 Hb) as G1. change (2 * 24) with 48 in G1. change (24 + Z.of_nat 8) with 32 in G1. rewrite G1 by lia. cbn [bind]. clear G1.
    rewrite pack_bytes_ok by (try apply bytes_slice; auto; rewrite slice_length by lia; auto).
    unfold of_fields. cbn [k_label k_length k_high k_mid k_low k_d1 k_d2 k_d3 k_d4]. f_equal. clear - Lm Ll.
    pose proof (le_bytes_length 4 (be_val (slice 16 20 l))) as L1. pose proof (le_bytes_length 2 (be_val (slice 20 22 l))) as L2. pose proof (le_bytes_length 2 (be_val (slice 22 24 l))) as L3.
    revert L1 L2 L3. generalize (le_bytes 4 (be_val (slice 16 20 l))) (le_bytes 2 (be_val (slice 20 22 l))) (le_bytes 2 (be_val (slice 22 24 l))).
    intros b1 b2 b3 L1 L2 L3. explode m 32. explode l 32. explode b1 4. explode b2 2. explode b3 2. reflexivity.
Qed.

(** the one case in which the text is read differently from how it was written *)
Definition ambiguous (d : mdict) : bool :=
  half_swapped (nth 11 (k_label d) 0) (be_bytes 4 (k_d1 d) ++ be_bytes 2 (k_d2 d)) && negb (half_swapped (nth 11 (k_label d) 0) (k_d4 d)).

Lemma fields_of_shown : forall d, dict_ok d -> (fields_of (shown d) = d <-> ambiguous d = false).
Proof.
  intros d (H1 & H2 & H3 & H4 & H5 & H6 & H7 & H8 & H9 & H10 & H11). destruct d as [lab len hi mi lo d1 d2 d3 d4].
  cbn [k_label k_length k_high k_mid k_low k_d1 k_d2 k_d3 k_d4] in *. unfold ambiguous, shown, head, swapped, straight.
  cbn [k_label k_length k_high k_mid k_low k_d1 k_d2 k_d3 k_d4].
  assert (E1 : be_val (be_bytes 4 d1) = d1) by (rewrite be_val_be_bytes; apply Z.mod_small; exact H7).
  assert (E2 : be_val (be_bytes 2 d2) = d2) by (rewrite be_val_be_bytes; apply Z.mod_small; exact H8).
  assert (E3 : be_val (be_bytes 2 d3) = d3) by (rewrite be_val_be_bytes; apply Z.mod_small; exact H9).
  pose proof (be_bytes_length 4 d1) as L1. pose proof (be_bytes_length 2 d2) as L2. pose proof (be_bytes_length 2 d3) as L3.
  revert E1 E2 E3 L1 L2 L3. generalize (be_bytes 4 d1) (be_bytes 2 d2) (be_bytes 2 d3). intros b1 b2 b3 E1 E2 E3 L1 L2 L3.
  destruct (half_swapped (nth 11 lab 0) d4) eqn:Es.
  - rewrite andb_false_r. split; auto. intros _. unfold fields_of.
    replace (half_swapped _ (slice 16 24 _)) with true.
    + rewrite <- E1, <- E2, <- E3. clear - H2 H11 L1 L2 L3. explode lab 12. explode d4 8. explode b1 4. explode b2 2. explode b3 2. reflexivity.
    + rewrite <- Es. clear - H2 H11 L1 L2 L3. explode lab 12. explode d4 8. explode b1 4. explode b2 2. explode b3 2. reflexivity.
  - cbn [negb]. rewrite andb_true_r.
    assert (Eh : forall x, half_swapped (nth 11 ((lab ++ [len; hi; mi; lo]) ++ b1 ++ b2 ++ b3 ++ d4) x) (slice 16 24 ((lab ++ [len; hi; mi; lo]) ++ b1 ++ b2 ++ b3 ++ d4)) = half_swapped (nth 11 lab 0) (b1 ++ b2)).
    { intros x. clear - H2 H11 L1 L2 L3. explode lab 12. explode d4 8. explode b1 4. explode b2 2. explode b3 2. reflexivity. }
    unfold fields_of. rewrite Eh. clear Eh. destruct (half_swapped (nth 11 lab 0) (b1 ++ b2)) eqn:Ea; (split; [intros E|intros E]); try discriminate; auto.
    + exfalso. injection E as _ _ _ _ _ _ _ _ E4. rewrite <- E4 in Es.
      assert (Hx : half_swapped (nth 11 lab 0) (slice 16 24 ((lab ++ [len; hi; mi; lo]) ++ b1 ++ b2 ++ b3 ++ d4)) = half_swapped (nth 11 lab 0) (b1 ++ b2)).
      { clear - H2 H11 L1 L2 L3. explode lab 12. explode d4 8. explode b1 4. explode b2 2. explode b3 2. reflexivity. }
      congruence.
    + rewrite <- E1, <- E2, <- E3. clear - H2 H11 L1 L2 L3. explode lab 12. explode d4 8. explode b1 4. explode b2 2. explode b3 2. reflexivity.
Qed.
