From Verif Require Import Base BaseFacts Codec.
From Coq Require Import ZArith List Bool Lia.
From Coq Require Import ZifyBool ZifyNat ZifyN.
Import ListNotations.
Open Scope Z_scope.
Ltac Zify.zify_post_hook ::= Z.div_mod_to_equations.

Lemma pow256_S : forall n, 256 ^ Z.of_nat (S n) = 256 * 256 ^ Z.of_nat n.
Proof. intros. rewrite Nat2Z.inj_succ, Z.pow_succ_r by lia. reflexivity. Qed.

Lemma pow256_pos : forall n, 0 < 256 ^ Z.of_nat n.
Proof. intros. apply Z.pow_pos_nonneg; lia. Qed.

Lemma le_bytes_length : forall n v, length (le_bytes n v) = n.
Proof. induction n; cbn; intros; auto. Qed.

Lemma zlen_le_bytes : forall n v, zlen (le_bytes n v) = Z.of_nat n.
Proof. intros. unfold zlen. rewrite le_bytes_length. auto. Qed.

Lemma le_bytes_bytes : forall n v, bytes (le_bytes n v).
Proof.
  induction n; cbn; intros; constructor.
  - unfold is_byte. pose proof (Z.mod_pos_bound v 256). lia.
  - apply IHn.
Qed.

Lemma le_val_le_bytes : forall n v, le_val (le_bytes n v) = v mod 256 ^ Z.of_nat n.
Proof.
  induction n; intros.
  - cbn. rewrite Z.mod_1_r. auto.
  - cbn [le_bytes le_val]. rewrite IHn, pow256_S.
    pose proof (pow256_pos n).
    rewrite Z.rem_mul_r by lia. lia.
Qed.

Lemma le_val_range : forall l, bytes l -> 0 <= le_val l < 256 ^ zlen l.
Proof.
  induction l; intros H.
  - cbn. lia.
  - inversion H; subst. apply IHl in H3. unfold is_byte in H2.
    rewrite zlen_cons. rewrite Z.add_comm, Z.pow_add_r, Z.pow_1_r by (pose proof (zlen_nonneg _ l); lia).
    cbn [le_val]. nia.
Qed.

Lemma le_bytes_le_val : forall l, bytes l -> le_bytes (length l) (le_val l) = l.
Proof.
  induction l; intros H; auto. inversion H; subst. unfold is_byte in H2.
  cbn [length le_val le_bytes].
  replace ((a + 256 * le_val l) mod 256) with a by lia.
  replace ((a + 256 * le_val l) / 256) with (le_val l) by lia.
  f_equal. apply IHl; auto.
Qed.

Lemma le_val_inj : forall a b, bytes a -> bytes b -> length a = length b -> le_val a = le_val b -> a = b.
Proof.
  intros. rewrite <- (le_bytes_le_val a), <- (le_bytes_le_val b) by auto. congruence.
Qed.

Lemma le_val_app : forall a b, le_val (a ++ b) = le_val a + 256 ^ zlen a * le_val b.
Proof.
  induction a; intros.
  - cbn [app le_val]. change (zlen (@nil Z)) with 0. lia.
  - cbn [app le_val]. rewrite IHa, zlen_cons.
    rewrite Z.pow_add_r by (pose proof (zlen_nonneg _ a0); lia). lia.
Qed.

Lemma be_val_be_bytes : forall n v, be_val (be_bytes n v) = v mod 256 ^ Z.of_nat n.
Proof. intros. unfold be_val, be_bytes. rewrite rev_involutive. apply le_val_le_bytes. Qed.

Lemma bytes_rev : forall l, bytes l -> bytes (rev l).
Proof. intros. unfold bytes in *. apply Forall_rev; auto. Qed.

Lemma be_bytes_be_val : forall l, bytes l -> be_bytes (length l) (be_val l) = l.
Proof.
  intros. unfold be_val, be_bytes. rewrite <- (rev_length l).
  rewrite le_bytes_le_val by (apply bytes_rev; auto). apply rev_involutive.
Qed.

Lemma be_bytes_length : forall n v, length (be_bytes n v) = n.
Proof. intros. unfold be_bytes. rewrite rev_length. apply le_bytes_length. Qed.

Lemma be_val_range : forall l, bytes l -> 0 <= be_val l < 256 ^ zlen l.
Proof. intros. unfold be_val. rewrite <- zlen_rev. apply le_val_range. apply bytes_rev; auto. Qed.

Lemma pack_u_Ok : forall n v d, pack_u n v = Ok d <-> 0 <= v < 256 ^ Z.of_nat n /\ d = le_bytes n v.
Proof.
  intros. unfold pack_u. destruct ((0 <=? v) && (v <? 256 ^ Z.of_nat n)) eqn:E; split; intros.
  - inversion H. split; [lia|auto].
  - destruct H; subst; auto.
  - discriminate.
  - lia.
Qed.

Lemma unpack_pack_u : forall n v d, pack_u n v = Ok d -> unpack_u n d = Ok v.
Proof.
  intros n v d H. apply pack_u_Ok in H. destruct H as [Hr ->].
  unfold unpack_u. rewrite zlen_le_bytes, Z.eqb_refl, le_val_le_bytes, Z.mod_small; auto.
Qed.

Lemma pack_s_Ok : forall n v d, pack_s n v = Ok d <->
  - (256 ^ Z.of_nat n / 2) <= v < 256 ^ Z.of_nat n / 2 /\ d = le_bytes n (v mod 256 ^ Z.of_nat n).
Proof.
  intros. unfold pack_s. generalize (256 ^ Z.of_nat n / 2) as h. intro h.
  destruct ((- h <=? v) && (v <? h)) eqn:E; split; intros.
  - inversion H. split; [lia|auto].
  - destruct H; subst; auto.
  - discriminate.
  - lia.
Qed.

Lemma pow256_even : forall n, (0 < n)%nat -> 256 ^ Z.of_nat n = 2 * (256 ^ Z.of_nat n / 2).
Proof.
  intros n H. destruct n; [lia|]. rewrite pow256_S.
  replace (256 * 256 ^ Z.of_nat n) with (2 * (128 * 256 ^ Z.of_nat n)) by lia.
  rewrite (Z.mul_comm 2 (128 * _)), Z.div_mul by lia. lia.
Qed.

Lemma unpack_pack_s : forall n v d, (0 < n)%nat -> pack_s n v = Ok d -> unpack_s n d = Ok v.
Proof.
  intros n v d Hn H. apply pack_s_Ok in H. destruct H as [Hr ->].
  unfold unpack_s. rewrite zlen_le_bytes, Z.eqb_refl, le_val_le_bytes.
  pose proof (pow256_pos n). pose proof (pow256_even n Hn).
  rewrite Z.mod_mod by lia. f_equal. unfold to_signed.
  set (M := 256 ^ Z.of_nat n) in *. set (h := M / 2) in *.
  destruct (Z.ltb_spec v 0).
  - assert (v mod M = v + M) as ->.
    { symmetry. apply Z.mod_unique_pos with (-1); lia. }
    replace (v + M <? h) with false by lia. lia.
  - rewrite Z.mod_small by lia. replace (v <? h) with true by lia. auto.
Qed.

Lemma rd_u_app : forall n v r, 0 <= v < 256 ^ Z.of_nat n -> rd_u n (le_bytes n v ++ r) = Ok (v, r).
Proof.
  intros. unfold rd_u, rd.
  assert (ztake (Z.of_nat n) (le_bytes n v ++ r) = le_bytes n v) as ->.
  { rewrite <- (zlen_le_bytes n v) at 1. apply ztake_app_exact. }
  assert (zdrop (Z.of_nat n) (le_bytes n v ++ r) = r) as ->.
  { rewrite <- (zlen_le_bytes n v) at 1. apply zdrop_app_exact. }
  unfold unpack_u. rewrite zlen_le_bytes, Z.eqb_refl. cbn [bind].
  rewrite le_val_le_bytes, Z.mod_small by lia. auto.
Qed.

(** ** UTF-16 *)
Lemma units_of_bytes_app : forall a b, Nat.even (length a) = true ->
  units_of_bytes (a ++ b) = units_of_bytes a ++ units_of_bytes b.
Proof.
  fix IH 1. intros a b H. destruct a as [|x [|y t]].
  - reflexivity.
  - discriminate.
  - cbn [app units_of_bytes]. f_equal. apply IH. exact H.
Qed.

Definition unit16 (u : Z) : Prop := 0 <= u < 65536.

Lemma units_of_le2 : forall us, Forall unit16 us -> units_of_bytes (flat_map (le_bytes 2) us) = us.
Proof.
  induction us; intros H; auto. inversion H; subst. cbn [flat_map].
  change (le_bytes 2 a) with [a mod 256; a / 256 mod 256]. cbn [app units_of_bytes].
  rewrite IHus by auto. unfold unit16 in H2. f_equal. lia.
Qed.

Lemma length_flat_le2 : forall us, length (flat_map (le_bytes 2) us) = (2 * length us)%nat.
Proof.
  induction us; auto. cbn [flat_map]. rewrite app_length, le_bytes_length, IHus. cbn [length]. lia.
Qed.

Lemma utf16_units_ok : forall c, scalar c -> Forall unit16 (utf16_units c).
Proof.
  intros c H. unfold utf16_units. unfold scalar in H.
  destruct (Z.ltb_spec c 65536); repeat constructor; unfold unit16; lia.
Qed.

Lemma decode_units_app : forall c t, scalar c -> decode_units (utf16_units c ++ t) = c :: decode_units t.
Proof.
  intros c t H. unfold scalar in H. unfold utf16_units. destruct (Z.ltb_spec c 65536).
  - cbn [app decode_units]. unfold is_surrogate. replace ((55296 <=? c) && (c <? 57344)) with false by lia. auto.
  - cbn [app decode_units]. unfold is_surrogate.
    replace ((55296 <=? 55296 + (c - 65536) / 1024) && (55296 + (c - 65536) / 1024 <? 57344)) with true by lia.
    replace ((55296 + (c - 65536) / 1024 <? 56320) && (56320 <=? 56320 + (c - 65536) mod 1024) &&
             (56320 + (c - 65536) mod 1024 <? 57344)) with true by lia.
    f_equal. lia.
Qed.

Definition enc16 (s : list Z) : list Z := flat_map (fun c => flat_map (le_bytes 2) (utf16_units c)) s.

Lemma text_forallb : forall s, text s <->
  forallb (fun c => (0 <=? c) && (c <? 1114112) && negb (is_surrogate c)) s = true.
Proof.
  intros. rewrite forallb_forall. unfold text. rewrite Forall_forall.
  split; intros H x Hx; specialize (H x Hx); unfold scalar, is_surrogate in *; lia.
Qed.

Lemma encode_utf16_text : forall s, text s -> encode_utf16 s = Ok (enc16 s).
Proof. intros. unfold encode_utf16. rewrite (proj1 (text_forallb s)) by auto. reflexivity. Qed.

Lemma encode_utf16_Ok : forall s d, encode_utf16 s = Ok d -> text s /\ d = enc16 s.
Proof.
  intros s d H. unfold encode_utf16 in H. destruct (forallb _ s) eqn:E; [|discriminate].
  inversion H. split; auto. apply text_forallb; auto.
Qed.

Lemma enc16_units : forall s, enc16 s = flat_map (le_bytes 2) (flat_map utf16_units s).
Proof.
  induction s; auto. unfold enc16 in *. cbn [flat_map]. rewrite IHs.
  rewrite flat_map_app. reflexivity.
Qed.

Lemma text_units : forall s, text s -> Forall unit16 (flat_map utf16_units s).
Proof.
  induction s; intros H; [constructor|]. inversion H; subst. cbn [flat_map].
  apply Forall_app; split; auto. apply utf16_units_ok; auto.
Qed.

Lemma decode_units_text : forall s t, text s -> decode_units (flat_map utf16_units s ++ t) = s ++ decode_units t.
Proof.
  induction s; intros t H; auto. inversion H; subst. cbn [flat_map].
  rewrite <- app_assoc, decode_units_app by auto. cbn [app]. f_equal. apply IHs; auto.
Qed.

Lemma enc16_even : forall s, Nat.even (length (enc16 s)) = true.
Proof.
  intros. rewrite enc16_units, length_flat_le2. apply Nat.even_spec. exists (length (flat_map utf16_units s)). lia.
Qed.

Lemma decode_enc16_app : forall s t, text s ->
  decode_units (units_of_bytes (enc16 s ++ t)) = s ++ decode_units (units_of_bytes t).
Proof.
  intros. rewrite units_of_bytes_app by apply enc16_even.
  rewrite enc16_units, units_of_le2 by (apply text_units; auto).
  apply decode_units_text; auto.
Qed.

Lemma until_nul_app : forall s t, nul_free s -> until_nul (s ++ t) = s ++ until_nul t.
Proof.
  induction s; intros t H; auto. cbn [app until_nul].
  destruct (Z.eqb_spec a 0).
  - exfalso. apply H. left; auto.
  - f_equal. apply IHs. intro. apply H. right; auto.
Qed.

Lemma until_nul_free : forall s, nul_free s -> until_nul s = s.
Proof. intros. rewrite <- (app_nil_r s) at 1. rewrite until_nul_app by auto. cbn. apply app_nil_r. Qed.

Lemma decode_encode_utf16le : forall s d, nul_free s -> encode_utf16le s = Ok d -> decode_utf16le d = s.
Proof.
  intros s d Hn H. unfold encode_utf16le in H. apply bind_Ok in H. destruct H as [e [He H]].
  apply encode_utf16_Ok in He. destruct He as [Ht ->]. inversion H; subst.
  unfold decode_utf16le. rewrite decode_enc16_app by auto.
  cbn [units_of_bytes decode_units]. rewrite until_nul_app by auto. cbn. apply app_nil_r.
Qed.

(** decoding a fixed field that is exactly filled or zero padded *)
Lemma decode_utf16_padded : forall s pad, text s -> nul_free s ->
  (pad = [] \/ exists r, pad = 0 :: 0 :: r) -> decode_utf16le (enc16 s ++ pad) = s.
Proof.
  intros s pad Ht Hn Hp. unfold decode_utf16le. rewrite decode_enc16_app by auto.
  rewrite until_nul_app by auto. destruct Hp as [->|[r ->]]; cbn; apply app_nil_r.
Qed.

Lemma bytes_enc16 : forall s, bytes (enc16 s).
Proof.
  intros. rewrite enc16_units. generalize (flat_map utf16_units s) as u.
  induction u; cbn [flat_map]; [constructor|]. apply bytes_app; split; auto. apply le_bytes_bytes.
Qed.

Lemma enc16_inj : forall a b, text a -> text b -> enc16 a = enc16 b -> a = b.
Proof.
  intros a b Ha Hb H.
  pose proof (decode_enc16_app a [] Ha) as H1. pose proof (decode_enc16_app b [] Hb) as H2.
  rewrite H in H1. rewrite H1 in H2. cbn [units_of_bytes decode_units] in H2. rewrite !app_nil_r in H2. auto.
Qed.

Lemma zlen_enc16 : forall s, zlen (enc16 s) = 2 * zlen (flat_map utf16_units s).
Proof. intros. rewrite enc16_units. unfold zlen. rewrite length_flat_le2. lia. Qed.
