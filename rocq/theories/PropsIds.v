(** C37, C38, C39: the forms of AUID and MobID (src/aaf2/auid.py, src/aaf2/mobid.py).
    [auid a] says a is 16 bytes, [mobid m] that m is 32 bytes (IdsFacts). *)
From Verif Require Import Base BaseFacts Codec CodecFacts Text TextFacts IdsModel IdsFacts.
From Coq Require Import ZArith List Bool Lia String.
Import ListNotations.
Open Scope Z_scope.

(** ** C37 *)

(** What the forms mean, said without the byte shuffles of the code: Data1, Data2, Data3 are
    little-endian numbers in the 16 bytes, and the integer is their concatenation, most significant
    first, followed by Data4 as it stands. *)
Theorem C37_int_meaning : forall a, auid a ->
  auid_int a = le_val (slice 0 4 a) * 2 ^ 96 + le_val (slice 4 6 a) * 2 ^ 80 + le_val (slice 6 8 a) * 2 ^ 64 + be_val (slice 8 16 a).
Proof.
  intros a H. rewrite auid_int_be by auto. destruct H as [_ L]. explode a 16.
  repeat match goal with
  | |- context [swap_fields ?l] => let r := eval cbv in (swap_fields l) in change (swap_fields l) with r
  | |- context [slice ?i ?j ?l] => let r := eval cbv in (slice i j l) in change (slice i j l) with r
  end.
  unfold be_val. cbn [rev app le_val]. change (2 ^ 96) with (256 ^ 12). change (2 ^ 80) with (256 ^ 10). change (2 ^ 64) with (256 ^ 8). ring.
Qed.
Print Assumptions C37_int_meaning.

(** Every form converts back to the identifier it came from. *)
Theorem C37_auid_roundtrips : forall a, auid a ->
  auid_of_be (auid_bytes_be a) = a /\ auid_of_int (auid_int a) = Ok a /\
  auid_of_hex (auid_hex a) = Ok a /\ auid_of_hex (auid_repr a) = Ok a /\
  auid_int a = be_val (auid_bytes_be a) /\ auid_hex a = flat_map (hexw 2) (auid_bytes_be a).
Proof.
  intros a H. split; [apply swap_swap; apply H|]. split; [apply of_int_int; auto|]. split; [apply of_hex_hex; auto|].
  split; [apply of_hex_repr; auto|]. split; [apply auid_int_be; auto|]. rewrite auid_hex_hexs by auto. reflexivity.
Qed.
Print Assumptions C37_auid_roundtrips.

(** Every integer of 128 bits is the integer of the identifier made of it; all others are refused. *)
Theorem C37_auid_of_int : forall n,
  (0 <= n < 2 ^ 128 -> exists a, auid_of_int n = Ok a /\ auid a /\ auid_int a = n) /\
  (~ 0 <= n < 2 ^ 128 -> auid_of_int n = Err ValueError).
Proof.
  intros n. split; [apply int_of_int|]. intros H. unfold auid_of_int. replace (n =? 0) with false by lia.
  replace ((0 <=? n) && (n <? 2 ^ 128)) with false by lia. reflexivity.
Qed.
Print Assumptions C37_auid_of_int.

(** 32 digits of either case name one identifier, whose hex form is the lower case text. *)
Theorem C37_auid_of_hex : forall s, List.length s = 32%nat -> Forall hexdig s ->
  exists a, auid_of_hex s = Ok a /\ auid a /\ auid_hex a = lower s.
Proof. exact of_hex_any_case. Qed.
Print Assumptions C37_auid_of_hex.

(** Equality and order agree with those of the integers, and of the other forms. *)
Theorem C37_auid_order : forall a b, auid a -> auid b ->
  (auid_eq a b = true <-> a = b) /\ (a = b <-> auid_int a = auid_int b) /\ (a = b <-> auid_bytes_be a = auid_bytes_be b) /\
  (a = b <-> auid_hex a = auid_hex b) /\ (auid_lt a b = true <-> auid_int a < auid_int b).
Proof.
  intros a b Ha Hb. split; [apply zlist_eqb_eq|]. split; [split; [congruence|apply auid_int_inj; auto]|].
  split; [split; [congruence|]|]. { intros E. rewrite <- (swap_swap a), <- (swap_swap b) by (apply Ha || apply Hb). unfold auid_bytes_be in E. congruence. }
  split; [split; [congruence|]|]. { intros E. pose proof (of_hex_hex a Ha) as X. rewrite E, of_hex_hex in X by auto. congruence. }
  unfold auid_lt. apply Z.ltb_lt.
Qed.
Print Assumptions C37_auid_order.

Example C37_case : auid_of_hex (codes "urn:uuid:01020304-0506-0708-090a-0B0C0D0E0F10") = Ok [4;3;2;1; 6;5; 8;7; 9;10;11;12;13;14;15;16] /\
  auid [4;3;2;1; 6;5; 8;7; 9;10;11;12;13;14;15;16] /\
  auid_of_hex (codes "{01020304-0506-0708-090a-0B0C0D0E0F10}") = Ok [4;3;2;1; 6;5; 8;7; 9;10;11;12;13;14;15;16].
Proof. split; [vm_compute; reflexivity|]. split; [|vm_compute; reflexivity]. split; [|reflexivity]. repeat constructor; unfold is_byte; lia. Qed.

(** Finding: the length test counts characters and bytearray.fromhex skips blanks, so text with blanks
    in it is accepted and gives an identifier of fewer than 16 bytes. *)
Theorem C37_short_auid_refuted : exists s a, auid_of_hex s = Ok a /\ List.length a <> 16%nat.
Proof. exists (codes "00112233 44556677 8899aabbccddee"), [51;34;17;0;85;68;119;102;136;153;170;187;204;221;238]. split; [vm_compute; reflexivity|discriminate]. Qed.
Print Assumptions C37_short_auid_refuted.

(** ** C38 *)

Theorem C38_mobid_roundtrips : forall m m0, mobid m -> List.length m0 = 32%nat ->
  m_of_int (m_int m) = m /\ m_int m = be_val m /\ from_dict m0 (to_dict m) = Ok m /\
  m_int m = be_val (m_label m ++ [m_length m; m_high m; m_mid m; m_low m] ++ m_material m).
Proof.
  intros m m0 H L. split; [apply m_of_int_int; auto|]. split; [apply m_int_val|]. destruct (to_dict_ok m H) as [H1 H2].
  split; [rewrite from_dict_ok by auto; congruence|]. rewrite m_int_val. f_equal. destruct H as [_ Lm]. clear - Lm. explode m 32. reflexivity.
Qed.
Print Assumptions C38_mobid_roundtrips.

Theorem C38_mobid_of_int : forall v, 0 <= v < 2 ^ 256 -> mobid (m_of_int v) /\ m_int (m_of_int v) = v.
Proof. intros v H. destruct (m_int_of_int v) as [H1 H2]. rewrite Z.mod_small in H1 by auto. auto. Qed.
Print Assumptions C38_mobid_of_int.

(** Finding: an integer out of range is not refused, as AUID refuses it, but loses its high bits. *)
Theorem C38_int_wraps : forall v, m_int (m_of_int v) = v mod 2 ^ 256.
Proof. intros v. apply m_int_of_int. Qed.
Print Assumptions C38_int_wraps.
Theorem C38_int_refuted : exists v, m_int (m_of_int v) <> v.
Proof. exists (2 ^ 256). vm_compute. discriminate. Qed.
Print Assumptions C38_int_refuted.

Theorem C38_dict_roundtrip : forall m0 d, List.length m0 = 32%nat -> dict_ok d ->
  exists m, from_dict m0 d = Ok m /\ mobid m /\ to_dict m = d.
Proof.
  intros m0 d L H. exists (of_fields d). split; [apply from_dict_ok; auto|]. split; [apply of_fields_mobid; auto|apply to_dict_of_fields; auto].
Qed.
Print Assumptions C38_dict_roundtrip.

(** Each setter writes its own field and nothing else, and refuses values that do not fit. *)
Definition writes_byte (set : list Z -> Z -> result (list Z)) (put : mdict -> Z -> mdict) : Prop := forall m v, mobid m ->
  (is_byte v -> exists m', set m v = Ok m' /\ mobid m' /\ to_dict m' = put (to_dict m) v) /\ (~ is_byte v -> set m v = Err ValueError).
Definition writes_num (n : Z) (set : list Z -> Z -> result (list Z)) (put : mdict -> Z -> mdict) : Prop := forall m v, mobid m ->
  (0 <= v < 2 ^ n -> exists m', set m v = Ok m' /\ mobid m' /\ to_dict m' = put (to_dict m) v) /\ (~ 0 <= v < 2 ^ n -> set m v = Err StructError).
Definition writes_bytes (n : nat) (set : list Z -> list Z -> result (list Z)) (put : mdict -> list Z -> mdict) : Prop := forall m v, mobid m ->
  (bytes v /\ List.length v = n -> exists m', set m v = Ok m' /\ mobid m' /\ to_dict m' = put (to_dict m) v) /\
  (~ (bytes v /\ List.length v = n) -> set m v = Err StructError).

Lemma set_byte_refused : forall m i v, ~ is_byte v -> set_byte m i v = Err ValueError.
Proof. intros m i v H. unfold set_byte, is_byte in *. replace ((0 <=? v) && (v <? 256)) with false by lia. auto. Qed.
Lemma pack_into_refused : forall n m off v, ~ 0 <= v < 256 ^ Z.of_nat n -> pack_into n m off v = Err StructError.
Proof. intros n m off v H. unfold pack_into, pack_u. replace ((0 <=? v) && (v <? 256 ^ Z.of_nat n)) with false by lia. auto. Qed.
Lemma pack_bytes_refused : forall n m off vs, ~ (bytes vs /\ List.length vs = n) -> pack_bytes (Z.of_nat n) m off vs = Err StructError.
Proof.
  intros n m off vs H. unfold pack_bytes. destruct ((zlen vs =? Z.of_nat n) && forallb (fun v => (0 <=? v) && (v <? 256)) vs) eqn:E; auto.
  exfalso. apply H. apply andb_true_iff in E. destruct E as [E1 E2]. split.
  - apply Forall_forall. intros x Hx. rewrite forallb_forall in E2. apply E2 in Hx. unfold is_byte. lia.
  - unfold zlen in E1. lia.
Qed.

Lemma upd_mobid : forall m i v, mobid m -> 0 <= i < 32 -> is_byte v -> mobid (zupd m i v).
Proof.
  intros m i v [H L] Hi Hv. split.
  - unfold zupd. destruct (_ && _); auto. clear L Hi. revert m H. induction (Z.to_nat i) as [|n IH]; intros [|x m] H; cbn; auto; inversion H; subst; constructor; auto; apply IH; auto.
  - pose proof (zlen_zupd _ m i v) as Z. unfold zlen in Z. lia.
Qed.
Lemma bytes_ztake : forall n l, bytes l -> bytes (ztake n l).
Proof. intros n l H. assert (E : l = ztake n l ++ zdrop n l) by (symmetry; apply firstn_skipn). rewrite E in H. apply bytes_app in H. apply H. Qed.
Lemma bytes_zdrop : forall n l, bytes l -> bytes (zdrop n l).
Proof. intros n l H. assert (E : l = ztake n l ++ zdrop n l) by (symmetry; apply firstn_skipn). rewrite E in H. apply bytes_app in H. apply H. Qed.
Lemma splice_mobid : forall m off d, mobid m -> bytes d -> 0 <= off -> off + zlen d <= 32 -> mobid (splice off d m).
Proof.
  intros m off d [H L] Hd H1 H2. unfold splice. split.
  - rewrite !bytes_app. split; [|split]; auto.
    + apply bytes_ztake; auto.
    + apply bytes_zdrop; auto.
  - rewrite !app_length. unfold ztake, zdrop, zlen in *. rewrite firstn_length, skipn_length. lia.
Qed.

Ltac byte_field := intros m v Hm; split; intros Hv; [|apply set_byte_refused; auto];
  eexists; split; [apply set_byte_ok; auto|]; split; [apply upd_mobid; auto; lia|];
  destruct Hm as [_ Lm]; clear - Lm; explode m 32; reflexivity.

Tactic Notation "num_field" constr(n) int_or_var(k) := intros m v Hm; split; intros Hv; [|apply pack_into_refused; auto];
  eexists; split; [apply pack_into_ok; auto|]; split;
  [apply splice_mobid; auto; [apply le_bytes_bytes|lia|unfold zlen; rewrite le_bytes_length; lia]|];
  destruct Hm as [_ Lm];
  assert (E : le_val (le_bytes n v) = v) by (rewrite le_val_le_bytes; apply Z.mod_small; exact Hv);
  pose proof (le_bytes_length n v) as L; rewrite <- E at 2; revert L; generalize (le_bytes n v); intros b L; clear - Lm L; explode m 32; explode b k; reflexivity.

Tactic Notation "bytes_field" constr(n) int_or_var(k) := intros m v Hm; split; intros Hv; [|apply (pack_bytes_refused n); auto];
  destruct Hv as [Hv Lv]; eexists; split; [apply pack_bytes_ok; auto; unfold zlen; rewrite Lv; reflexivity|]; split;
  [apply splice_mobid; auto; unfold zlen; lia|];
  destruct Hm as [_ Lm]; clear - Lm Lv; explode m 32; explode v k; reflexivity.

Theorem C38_setters :
  writes_bytes 12 set_label (fun d v => mkmd v (k_length d) (k_high d) (k_mid d) (k_low d) (k_d1 d) (k_d2 d) (k_d3 d) (k_d4 d)) /\
  writes_byte set_length (fun d v => mkmd (k_label d) v (k_high d) (k_mid d) (k_low d) (k_d1 d) (k_d2 d) (k_d3 d) (k_d4 d)) /\
  writes_byte set_high (fun d v => mkmd (k_label d) (k_length d) v (k_mid d) (k_low d) (k_d1 d) (k_d2 d) (k_d3 d) (k_d4 d)) /\
  writes_byte set_mid (fun d v => mkmd (k_label d) (k_length d) (k_high d) v (k_low d) (k_d1 d) (k_d2 d) (k_d3 d) (k_d4 d)) /\
  writes_byte set_low (fun d v => mkmd (k_label d) (k_length d) (k_high d) (k_mid d) v (k_d1 d) (k_d2 d) (k_d3 d) (k_d4 d)) /\
  writes_num 32 set_data1 (fun d v => mkmd (k_label d) (k_length d) (k_high d) (k_mid d) (k_low d) v (k_d2 d) (k_d3 d) (k_d4 d)) /\
  writes_num 16 set_data2 (fun d v => mkmd (k_label d) (k_length d) (k_high d) (k_mid d) (k_low d) (k_d1 d) v (k_d3 d) (k_d4 d)) /\
  writes_num 16 set_data3 (fun d v => mkmd (k_label d) (k_length d) (k_high d) (k_mid d) (k_low d) (k_d1 d) (k_d2 d) v (k_d4 d)) /\
  writes_bytes 8 set_data4 (fun d v => mkmd (k_label d) (k_length d) (k_high d) (k_mid d) (k_low d) (k_d1 d) (k_d2 d) (k_d3 d) v).
Proof.
  split; [bytes_field 12%nat 12|]. split; [byte_field|]. split; [byte_field|]. split; [byte_field|]. split; [byte_field|].
  split; [num_field 4%nat 4|]. split; [num_field 2%nat 2|]. split; [num_field 2%nat 2|bytes_field 8%nat 8].
Qed.
Print Assumptions C38_setters.

Theorem C38_mobid_order : forall a b, mobid a -> mobid b ->
  (m_eq a b = true <-> a = b) /\ (a = b <-> m_int a = m_int b) /\ (m_lt a b = true <-> m_int a < m_int b).
Proof.
  intros a b Ha Hb. split; [apply zlist_eqb_eq|]. split.
  - split; [congruence|]. intros E. rewrite <- (m_of_int_int a), <- (m_of_int_int b) by auto. congruence.
  - unfold m_lt. apply Z.ltb_lt.
Qed.
Print Assumptions C38_mobid_order.

Example C38_case : mobid (zseq 1 32) /\ dict_ok (to_dict (zseq 1 32)).
Proof. assert (H : mobid (zseq 1 32)) by (split; [repeat constructor; unfold is_byte; lia|reflexivity]). split; auto. apply to_dict_ok. auto. Qed.

(** ** C39 *)

(** The code prints the two halves of the material number swapped when Data4 starts with
    06 0e 2b 34 7f 7f and the 12th label byte is 0, and on reading swaps when the first half starts
    so. Exactly the identifiers whose Data1, Data2 spell those six bytes while Data4 does not start
    with them are read back wrongly. *)
Definition mark : list Z := [6; 14; 43; 52; 127; 127].
Definition urn_confused (m : list Z) : Prop :=
  nth 11 m 0 = 0 /\ m_data1 m = 0x060e2b34 /\ m_data2 m = 0x7f7f /\ slice 24 30 m <> mark.

Lemma half_swapped_spec : forall x d, half_swapped x d = true <-> x = 0 /\ ztake 6 d = mark.
Proof. intros x d. unfold half_swapped. rewrite andb_true_iff, Z.eqb_eq, zlist_eqb_eq. reflexivity. Qed.

Lemma confused_iff : forall m, mobid m -> (ambiguous (to_dict m) = true <-> urn_confused m).
Proof.
  intros m Hm. unfold ambiguous. rewrite andb_true_iff, negb_true_iff.
  assert (E1 : nth 11 (k_label (to_dict m)) 0 = nth 11 m 0) by (destruct Hm as [_ L]; clear - L; explode m 32; reflexivity).
  assert (E2 : ztake 6 (k_d4 (to_dict m)) = slice 24 30 m) by (destruct Hm as [_ L]; clear - L; explode m 32; reflexivity).
  destruct (to_dict_ok m Hm) as [(_ & _ & _ & _ & _ & _ & B1 & B2 & _) _].
  change (k_d1 (to_dict m)) with (m_data1 m) in *. change (k_d2 (to_dict m)) with (m_data2 m) in *.
  assert (E3 : ztake 6 (be_bytes 4 (m_data1 m) ++ be_bytes 2 (m_data2 m)) = mark <-> m_data1 m = 0x060e2b34 /\ m_data2 m = 0x7f7f).
  { split.
    - pose proof (be_bytes_length 4 (m_data1 m)) as L1. pose proof (be_bytes_length 2 (m_data2 m)) as L2.
      pose proof (be_val_be_bytes 4 (m_data1 m)) as V1. pose proof (be_val_be_bytes 2 (m_data2 m)) as V2.
      rewrite Z.mod_small in V1 by exact B1. rewrite Z.mod_small in V2 by exact B2. rewrite <- V1, <- V2.
      intros E. rewrite V1, V2 in E. revert L1 L2 E. generalize (be_bytes 4 (m_data1 m)) (be_bytes 2 (m_data2 m)). clear.
      intros b1 b2 L1 L2 E. explode b1 4. explode b2 2. cbn in E. injection E as -> -> -> -> -> ->. split; reflexivity.
    - intros [-> ->]. reflexivity. }
  rewrite half_swapped_spec, E1, E3. unfold urn_confused.
  assert (E4 : half_swapped (nth 11 m 0) (k_d4 (to_dict m)) = false <-> ~ (nth 11 m 0 = 0 /\ slice 24 30 m = mark)).
  { rewrite <- E2, <- half_swapped_spec. destruct (half_swapped _ _); split; congruence. }
  rewrite E4. tauto.
Qed.

Theorem C39_urn_roundtrip_iff_partial : forall m m0, mobid m -> List.length m0 = 32%nat ->
  (m_set_urn m0 (m_urn m) = Ok m <-> ~ urn_confused m).
Proof.
  intros m m0 Hm L0. destruct (to_dict_ok m Hm) as [Hd He]. destruct (urn_text (to_dict m) Hd) as (t & T1 & T2 & T3). rewrite He in T1.
  destruct (shown_bytes (to_dict m) Hd) as [S1 S2]. rewrite T1. rewrite (urn_parse m0 t (shown (to_dict m))) by auto.
  rewrite <- confused_iff by auto. pose proof (fields_of_shown (to_dict m) Hd) as F. split.
  - intros E. injection E as E. assert (X : fields_of (shown (to_dict m)) = to_dict m).
    { rewrite <- E at 2. symmetry. apply to_dict_of_fields. apply fields_of_ok; auto. }
    apply F in X. congruence.
  - intros N. assert (X : ambiguous (to_dict m) = false) by (destruct (ambiguous (to_dict m)); congruence). apply F in X. rewrite X, He. auto.
Qed.
Print Assumptions C39_urn_roundtrip_iff_partial.

(** The constructor MobID(urn) starts from 32 zero bytes. *)
Theorem C39_urn_roundtrip_partial : forall m, mobid m -> ~ urn_confused m -> mob_of_urn (m_urn m) = Ok m.
Proof. intros m H N. apply C39_urn_roundtrip_iff_partial; auto. Qed.
Print Assumptions C39_urn_roundtrip_partial.

(** The property is false: this identifier prints to text that reads as another one. *)
Theorem C39_urn_refuted : exists m m', mobid m /\ mob_of_urn (m_urn m) = Ok m' /\ m' <> m.
Proof.
  exists (repeat 0 16 ++ [52;43;14;6; 127;127; 1;2; 3;4;5;6;7;8;9;10]), (repeat 0 16 ++ [6;5;4;3; 8;7; 10;9; 6;14;43;52;127;127;2;1]).
  split; [split; [repeat constructor; unfold is_byte; lia|reflexivity]|]. split; [vm_compute; reflexivity|discriminate].
Qed.
Print Assumptions C39_urn_refuted.

Example C39_case : mobid (zseq 1 32) /\ ~ urn_confused (zseq 1 32) /\ mob_of_urn (m_urn (zseq 1 32)) = Ok (zseq 1 32).
Proof.
  split; [split; [repeat constructor; unfold is_byte; lia|reflexivity]|]. split; [|vm_compute; reflexivity].
  unfold urn_confused. cbn. intuition discriminate.
Qed.
