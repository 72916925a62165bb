(** Facts about Text.v *)
From Verif Require Import Base BaseFacts Codec CodecFacts Text.
From Coq Require Import ZArith List Bool String Lia.
Import ListNotations.
Open Scope Z_scope.

Definition is_hex_lower (c : Z) : Prop := 48 <= c <= 57 \/ 97 <= c <= 102.

Lemma hex_char_lower : forall d, 0 <= d < 16 -> is_hex_lower (hex_char d).
Proof. intros d H. unfold is_hex_lower, hex_char. destruct (d <? 10) eqn:E; lia. Qed.

Lemma hex_val_char : forall d, 0 <= d < 16 -> hex_val (hex_char d) = Some d.
Proof.
  intros d H. unfold hex_val, hex_char. destruct (d <? 10) eqn:E.
  - replace ((48 <=? 48 + d) && (48 + d <=? 57)) with true by lia. f_equal. lia.
  - replace ((48 <=? 87 + d) && (87 + d <=? 57)) with false by lia.
    replace ((97 <=? 87 + d) && (87 + d <=? 102)) with true by lia. f_equal. lia.
Qed.

Lemma pow16_S : forall n, 16 ^ Z.of_nat (S n) = 16 * 16 ^ Z.of_nat n.
Proof. intros. rewrite Nat2Z.inj_succ, Z.pow_succ_r by lia. reflexivity. Qed.

Lemma hexw_length : forall w n, List.length (hexw w n) = w.
Proof. induction w; intros; cbn; auto. rewrite app_length, IHw. cbn. lia. Qed.

Lemma hexw_lower : forall w n, Forall is_hex_lower (hexw w n).
Proof.
  induction w; intros; cbn; [constructor|]. apply Forall_app. split; auto. constructor; [|constructor].
  apply hex_char_lower. apply Z.mod_pos_bound. lia.
Qed.

Lemma hexw_zero : forall w, hexw w 0 = repeat 48 w.
Proof.
  induction w; cbn [hexw]; auto. change (0 / 16) with 0. rewrite IHw. change (0 mod 16) with 0. change (hex_char 0) with 48.
  change [48] with (repeat 48 1). rewrite <- (repeat_app 48 w 1). f_equal. lia.
Qed.

Lemma hex_go_pad : forall w f n, (0 < w)%nat -> (0 < f)%nat -> 0 <= n < 16 ^ Z.of_nat w -> n < 16 ^ Z.of_nat f ->
  (List.length (hex_go f n) <= w)%nat /\ repeat 48 (w - List.length (hex_go f n)) ++ hex_go f n = hexw w n.
Proof.
  induction w as [|w IH]; intros f n Hw Hf0 Hn Hf; [lia|]. destruct f as [|f]; [lia|].
  rewrite pow16_S in Hn, Hf. cbn [hex_go hexw]. destruct (n <? 16) eqn:E.
  - cbn [List.length]. split; [lia|]. replace (S w - 1)%nat with w by lia.
    replace (n / 16) with 0 by lia. replace (n mod 16) with n by lia. rewrite hexw_zero. auto.
  - destruct w as [|w]; [change (16 ^ Z.of_nat 0) with 1 in Hn; lia|].
    destruct (IH f (n / 16)) as [I1 I2]; [lia|destruct f; [change (16 ^ Z.of_nat 0) with 1 in Hf|]; lia|split; [lia|]|lia|].
    { rewrite pow16_S in *. apply Z.div_lt_upper_bound; lia. }
    rewrite app_length. cbn [List.length]. split; [lia|].
    replace (S (S w) - (List.length (hex_go f (n / 16)) + 1))%nat with (S w - List.length (hex_go f (n / 16)))%nat by lia.
    rewrite app_assoc, I2. auto.
Qed.

Lemma hex_pad_hexw : forall w n, (0 < w)%nat -> 0 <= n < 16 ^ Z.of_nat w -> hex_pad w n = hexw w n.
Proof.
  intros w n Hw Hn. unfold hex_pad, hex_str. apply hex_go_pad; auto; [lia|].
  destruct (Z.eq_dec n 0) as [->|H0]; [reflexivity|].
  pose proof (Z.log2_spec n ltac:(lia)) as [_ H]. pose proof (Z.log2_nonneg n).
  rewrite Nat2Z.inj_succ, Z2Nat.id by lia.
  apply Z.lt_le_trans with (2 ^ Z.succ (Z.log2 n)); auto. apply Z.pow_le_mono_l. lia.
Qed.

Lemma hex_fold_app : forall a b acc, hex_fold acc (a ++ b) = do v <- hex_fold acc a ;; hex_fold v b.
Proof. induction a as [|c a IH]; intros b acc; cbn; auto. destruct (hex_val c); auto. Qed.

Lemma hex_fold_hexw : forall w n acc, 0 <= n < 16 ^ Z.of_nat w -> hex_fold acc (hexw w n) = Ok (acc * 16 ^ Z.of_nat w + n).
Proof.
  induction w as [|w IH]; intros n acc H.
  - cbn in *. f_equal. lia.
  - rewrite pow16_S in *. cbn [hexw]. rewrite hex_fold_app, IH by lia. cbn [bind hex_fold].
    rewrite hex_val_char by (apply Z.mod_pos_bound; lia). f_equal. lia.
Qed.

Lemma int16_hexw : forall w n, (0 < w)%nat -> 0 <= n < 16 ^ Z.of_nat w -> int16 (hexw w n) = Ok n.
Proof.
  intros w n Hw H. unfold int16. destruct (hexw w n) eqn:E.
  - pose proof (hexw_length w n) as L. rewrite E in L. cbn in L. lia.
  - rewrite <- E. rewrite hex_fold_hexw by auto. auto.
Qed.

(** ** pairs of digits *)
Definition hexs (l : list Z) : list Z := flat_map (hexw 2) l.

Lemma hexs_app : forall a b, hexs (a ++ b) = hexs a ++ hexs b.
Proof. intros. apply flat_map_app. Qed.

Lemma hexs_lower : forall l, Forall is_hex_lower (hexs l).
Proof. induction l; cbn [hexs flat_map]; [constructor|]. apply Forall_app. split; auto. apply hexw_lower. Qed.

Lemma hexs_length : forall l, List.length (hexs l) = (2 * List.length l)%nat.
Proof. induction l; cbn [hexs flat_map]; auto. rewrite app_length, hexw_length. unfold hexs in IHl. rewrite IHl. cbn [List.length]. lia. Qed.

Lemma zlen_hexs : forall l, zlen (hexs l) = 2 * zlen l.
Proof. intros. unfold zlen. rewrite hexs_length. lia. Qed.

Lemma hexw_be : forall k n, hexw (2 * k) n = hexs (be_bytes k n).
Proof.
  induction k as [|k IH]; intros n; auto. replace (2 * S k)%nat with (S (S (2 * k))) by lia. cbn [hexw].
  rewrite IH. unfold be_bytes. cbn [le_bytes rev]. rewrite hexs_app. unfold hexs at 3. cbn [flat_map hexw app].
  rewrite <- app_assoc. cbn [app]. rewrite Z.div_div by lia. change (16 * 16) with 256. f_equal. f_equal.
  - f_equal. lia.
  - f_equal. f_equal. lia.
Qed.

Lemma fromhex_hexs : forall l, bytes l -> fromhex (hexs l) = Ok l.
Proof.
  induction 1 as [|b l Hb _ IH]; auto. unfold is_byte in Hb. change (hexs (b :: l)) with (hex_char ((b / 16) mod 16) :: hex_char (b mod 16) :: hexs l). cbn [fromhex].
  assert (H1 : 0 <= b / 16 mod 16 < 16) by (apply Z.mod_pos_bound; lia). assert (H2 : 0 <= b mod 16 < 16) by (apply Z.mod_pos_bound; lia).
  pose proof (hex_char_lower _ H1) as C1. replace (is_space (hex_char (b / 16 mod 16))) with false.
  - rewrite !hex_val_char by auto. rewrite IH. cbn [bind]. do 2 f_equal. lia.
  - unfold is_hex_lower, is_space in *. lia.
Qed.

Lemma be_val_cons : forall b l, be_val (b :: l) = b * 256 ^ zlen l + be_val l.
Proof.
  intros. unfold be_val. cbn [rev]. rewrite le_val_app. cbn [le_val]. rewrite zlen_rev. lia.
Qed.

Lemma hex_fold_hexs : forall l acc, bytes l -> hex_fold acc (hexs l) = Ok (acc * 256 ^ zlen l + be_val l).
Proof.
  intros l acc H. revert acc. induction H as [|b l Hb H IH]; intros acc.
  - cbn. f_equal. unfold be_val. cbn. lia.
  - change (hexs (b :: l)) with (hexw 2 b ++ hexs l). rewrite hex_fold_app, hex_fold_hexw by (unfold is_byte in Hb; cbn; lia).
    cbn [bind]. rewrite IH, be_val_cons, zlen_cons. rewrite Z.pow_add_r by (pose proof (zlen_nonneg _ l); lia).
    change (16 ^ Z.of_nat 2) with 256. f_equal. lia.
Qed.

Lemma int16_hexs : forall l, bytes l -> l <> [] -> int16 (hexs l) = Ok (be_val l).
Proof.
  intros l H N. unfold int16. destruct (hexs l) eqn:E.
  - destruct l as [|b l]; [congruence|]. pose proof (hexs_length (b :: l)) as L. rewrite E in L. cbn in L. lia.
  - rewrite <- E, hex_fold_hexs by auto. f_equal.
Qed.

Lemma skipn_hexs : forall l n, skipn (2 * n) (hexs l) = hexs (skipn n l).
Proof.
  induction l as [|b l IH]; intros n.
  - rewrite !skipn_nil. auto.
  - destruct n as [|n]; auto. replace (2 * S n)%nat with (S (S (2 * n))) by lia. change (hexs (b :: l)) with (hex_char ((b / 16) mod 16) :: hex_char (b mod 16) :: hexs l). cbn [skipn]. apply IH.
Qed.
Lemma firstn_hexs : forall l n, firstn (2 * n) (hexs l) = hexs (firstn n l).
Proof.
  induction l as [|b l IH]; intros n.
  - rewrite !firstn_nil. auto.
  - destruct n as [|n]; auto. replace (2 * S n)%nat with (S (S (2 * n))) by lia. cbn [firstn]. change (hexs (b :: l)) with (hex_char ((b / 16) mod 16) :: hex_char (b mod 16) :: hexs l).
    change (hexs (b :: firstn n l)) with (hex_char ((b / 16) mod 16) :: hex_char (b mod 16) :: hexs (firstn n l)).
    cbn [firstn]. do 2 f_equal. apply IH.
Qed.

Lemma slice_hexs : forall i j l, 0 <= i <= j -> slice (2 * i) (2 * j) (hexs l) = hexs (slice i j l).
Proof.
  intros i j l H. unfold slice, zdrop, ztake. rewrite !zlen_hexs.
  replace (Z.to_nat (Z.min (2 * i) (2 * zlen l))) with (2 * Z.to_nat (Z.min i (zlen l)))%nat by lia.
  rewrite skipn_hexs. rewrite zlen_hexs.
  set (k := skipn _ l). replace (Z.to_nat (Z.min (2 * j - 2 * i) (2 * zlen k))) with (2 * Z.to_nat (Z.min (j - i) (zlen k)))%nat by lia.
  apply firstn_hexs.
Qed.

(** ** deleting substrings *)
Lemma is_prefix_In : forall p s c, is_prefix p s = true -> In c p -> In c s.
Proof.
  induction p as [|a p IH]; intros s c H Hc; [destruct Hc|]. destruct s as [|b s]; [discriminate|]. cbn in H.
  apply andb_true_iff in H. destruct H as [E H]. apply Z.eqb_eq in E. subst b. destruct Hc as [->|Hc]; [left|right]; auto.
Qed.

Lemma del_absent : forall old c s, In c old -> ~ In c s -> del_sub old s = s.
Proof.
  intros old c s Hc. unfold del_sub. induction s as [|x s IH]; intros Hn; auto. cbn [del_go].
  destruct (is_prefix old (x :: s)) eqn:E; [exfalso; apply Hn; eapply is_prefix_In; eauto|].
  f_equal. apply IH. intros X. apply Hn. right. auto.
Qed.

Lemma del_char : forall c s, del_sub [c] s = filter (fun x => negb (x =? c)) s.
Proof.
  intros c s. unfold del_sub. induction s as [|x s IH]; auto. cbn [del_go is_prefix filter List.length].
  rewrite andb_true_r, (Z.eqb_sym c x). destruct (x =? c); cbn; [|f_equal]; auto.
Qed.

Lemma is_prefix_self : forall p s, is_prefix p (p ++ s) = true.
Proof. induction p as [|c p IH]; intros; cbn [app is_prefix]; auto. rewrite Z.eqb_refl. apply IH. Qed.

Lemma del_go_skip : forall old p s, del_go old (List.length p) (p ++ s) = del_go old 0 s.
Proof. induction p; intros; cbn; auto. Qed.

Lemma del_front : forall old s, old <> [] -> del_sub old (old ++ s) = del_sub old s.
Proof.
  intros [|c old] s H; [congruence|]. unfold del_sub. cbn [app]. cbn [del_go].
  change (c :: old ++ s) with ((c :: old) ++ s). rewrite is_prefix_self. cbn [List.length]. replace (S (List.length old) - 1)%nat with (List.length old) by lia.
  apply del_go_skip.
Qed.

Lemma lower_id : forall s, (forall c, In c s -> ~ (65 <= c <= 90)) -> lower s = s.
Proof.
  intros s H. unfold lower. rewrite <- (map_id s) at 2. apply map_ext_in. intros c Hc. specialize (H c Hc).
  replace ((65 <=? c) && (c <=? 90)) with false by lia. auto.
Qed.

Lemma lstrip_id : forall cs c s, ~ In c cs -> lstrip cs (c :: s) = c :: s.
Proof.
  intros cs c s H. cbn. destruct (existsb (Z.eqb c) cs) eqn:E; auto. exfalso. apply H.
  apply existsb_exists in E. destruct E as (x & Hx & E). apply Z.eqb_eq in E. subst. auto.
Qed.

Lemma strip_id : forall cs s, (forall c, In c s -> ~ In c cs) -> strip cs s = s.
Proof.
  intros cs s H. unfold strip.
  assert (L : forall s, (forall c, In c s -> ~ In c cs) -> lstrip cs s = s).
  { intros [|c t] Ht; auto. apply lstrip_id. apply Ht. left. auto. }
  rewrite (L s) by auto. rewrite L by (intros c Hc; apply H; apply in_rev; auto). apply rev_involutive.
Qed.
