(** C11, C12: the fields of a directory entry. *)
From Verif Require Import Base BaseFacts Codec CodecFacts IdsModel IdsFacts DirEntryModel.
From Coq Require Import ZArith List Bool Lia String.
Import ListNotations.
Open Scope Z_scope.
Notation length := List.length.

(** ** Specification: an entry is a record of fields, an assignment changes one of them *)
Record fields : Type := mkf {
  f_name : list Z; f_type : string; f_color : string; f_left : option Z; f_right : option Z; f_child : option Z;
  f_class : option (list Z); f_flags : Z; f_create : Z; f_modify : Z; f_sector : option Z; f_size : Z }.

Definition upd (f : fields) (a : assignment) : fields :=
  let '(mkf n t c l r ch cl fl ct mt se sz) := f in
  match a with
  | AName v => mkf v t c l r ch cl fl ct mt se sz
  | AType v => mkf n v c l r ch cl fl ct mt se sz
  | AColor v => mkf n t v l r ch cl fl ct mt se sz
  | ARed b => mkf n t (if b then "red" else "black")%string l r ch cl fl ct mt se sz
  | ALeft v => mkf n t c v r ch cl fl ct mt se sz
  | ARight v => mkf n t c l v ch cl fl ct mt se sz
  | AChild v => mkf n t c l r v cl fl ct mt se sz
  | AClass v => mkf n t c l r ch v fl ct mt se sz
  | AFlags v => mkf n t c l r ch cl v ct mt se sz
  | ACreate v => mkf n t c l r ch cl fl v mt se sz
  | AModify v => mkf n t c l r ch cl fl ct v se sz
  | ASector v => mkf n t c l r ch cl fl ct mt v sz
  | ASize v => mkf n t c l r ch cl fl ct mt se v
  end.

(** the values a field can hold *)
Definition sid_ok (v : option Z) : Prop := match v with None => True | Some x => 0 <= x < 4294967295 end.
Definition name_ok (v : list Z) : Prop := text v /\ nul_free v /\ zlen (flat_map utf16_units v) <= 32.
Definition legal (a : assignment) : Prop :=
  match a with
  | AName v => name_ok v
  | AType v => In v ["empty"; "storage"; "stream"; "lock bytes"; "property"; "root storage"]%string
  | AColor v => v = "black"%string \/ v = "red"%string
  | ARed _ => True
  | ALeft v | ARight v | AChild v | ASector v => sid_ok v
  | AClass None => True
  | AClass (Some c) => bytes c /\ zlen c = 16 /\ exists x, In x c /\ x <> 0
  | AFlags v => 0 <= v < 2 ^ 32
  | ACreate v | ASize v => 0 <= v < 2 ^ 64
  | AModify _ => False
  end.

(** everything the getters return, in this order; None when reading the name raises *)
Definition shown (e : dent) : option fields :=
  match get_name e with
  | Ok (_, n) => Some (mkf n (get_type e) (get_color e) (get_left_id e) (get_right_id e) (get_child_id e) (get_class_id e)
                       (get_flags e) (get_create_time e) (get_modify_time e) (get_sector_id e) (get_byte_size e))
  | Err _ => None
  end.

(** any 128 bytes with a name length of at most 64; a name already read is the one in the image *)
Definition image (d : list Z) : Prop := zlen d = 128 /\ bytes d /\ le_val (slice 64 66 d) <= 64.
Definition valid (e : dent) : Prop := image (de_data e) /\
  match de_name e with None => True | Some n => n = decode_utf16le (slice 0 (le_val (slice 64 66 (de_data e))) (de_data e)) end.

(** ** Slices of a spliced list *)
Lemma slice_splice_out : forall (l d : list Z) a i j, 0 <= a -> a + zlen d <= zlen l -> 0 <= i <= j -> j <= zlen l ->
  j <= a \/ a + zlen d <= i -> slice i j (splice a d l) = slice i j l.
Proof.
  intros l d a i j Ha Hd Hi Hj O. apply znth_ext.
  - rewrite !zlen_slice; rewrite ?zlen_splice; auto; lia.
  - intros k Hk. rewrite zlen_slice in Hk by (rewrite ?zlen_splice; auto; lia). rewrite !znth_slice, znth_splice by lia.
    destruct (k <? j - i) eqn:E; auto. destruct ((a <=? i + k) && (i + k <? a + zlen d)) eqn:F; auto. lia.
Qed.

Lemma slice_splice_in : forall (l d : list Z) a b, 0 <= a -> a + zlen d <= zlen l -> b = a + zlen d -> slice a b (splice a d l) = d.
Proof.
  intros l d a b Ha Hd ->. apply znth_ext.
  - rewrite zlen_slice; rewrite ?zlen_splice; auto; pose proof (zlen_nonneg _ d); lia.
  - intros k Hk. rewrite zlen_slice in Hk by (rewrite ?zlen_splice; pose proof (zlen_nonneg _ d); auto; lia). rewrite znth_slice, znth_splice by lia.
    replace (k <? a + zlen d - a) with true by lia. replace ((a <=? a + k) && (a + k <? a + zlen d)) with true by lia. f_equal. lia.
Qed.

Lemma byte_at_out : forall l d a i, 0 <= a -> a + zlen d <= zlen l -> i < a \/ a + zlen d <= i -> byte_at (splice a d l) i = byte_at l i.
Proof.
  intros l d a i Ha Hd O. unfold byte_at. rewrite znth_splice by lia. destruct ((a <=? i) && (i <? a + zlen d)) eqn:F; auto. lia.
Qed.
Lemma byte_at_in : forall l x a, 0 <= a < zlen l -> byte_at (splice a [x] l) a = x.
Proof.
  intros l x a Ha. unfold byte_at. rewrite znth_splice by (change (zlen [x]) with 1; lia).
  change (zlen [x]) with 1. replace ((a <=? a) && (a <? a + 1)) with true by lia. replace (a - a) with 0 by lia. reflexivity.
Qed.

Lemma bytes_splice : forall l d a, bytes l -> bytes d -> bytes (splice a d l).
Proof. intros l d a Hl Hd. unfold splice. rewrite !bytes_app. split; [apply Forall_ztake; auto|]. split; auto. apply Forall_zdrop. auto. Qed.

Lemma image_splice : forall l d a, image l -> bytes d -> 66 <= a -> a + zlen d <= 128 -> image (splice a d l).
Proof.
  intros l d a (L & B & N) Hd Ha He. repeat split.
  - rewrite zlen_splice; lia.
  - apply bytes_splice; auto.
  - rewrite slice_splice_out by lia. auto.
Qed.

Lemma valid_splice : forall e d a, valid e -> bytes d -> 66 <= a -> a + zlen d <= 128 -> valid (mkde (splice a d (de_data e)) (de_name e)).
Proof.
  intros e d a [I N] Hd Ha He. pose proof (zlen_nonneg _ d). split; [apply image_splice; auto|]. cbn [de_name de_data]. destruct (de_name e); auto.
  destruct I as (L & B & NS). pose proof (le_val_range _ (Forall_slice _ _ 64 66 _ B)).
  rewrite (slice_splice_out _ _ _ 64 66) by lia. rewrite slice_splice_out by lia. auto.
Qed.

Lemma read_name : forall e, valid e ->
  exists e1, get_name e = Ok (e1, decode_utf16le (slice 0 (le_val (slice 64 66 (de_data e))) (de_data e))).
Proof.
  intros e [I N]. unfold get_name. destruct (de_name e) as [n|].
  - subst n. eexists. reflexivity.
  - destruct I as (L & B & NS). cbn zeta. unfold unpack_from. change (64 + 2) with 66.
    replace (le_val (slice 64 66 (de_data e)) <=? 64) with true by lia. eexists. reflexivity.
Qed.

(** ** C12 *)
Lemma zlen_enc : forall v, zlen (flat_map utf16_units v) <= 32 -> zlen (enc16 v) <= 64.
Proof. intros. rewrite zlen_enc16. lia. Qed.

Definition name_image (v d : list Z) : list Z :=
  splice 64 (le_bytes 2 (Z.min (zlen (enc16 v) + 2) 64)) (splice (zlen (enc16 v)) (zeros (64 - zlen (enc16 v))) (splice 0 (enc16 v) d)).

Lemma set_name_ok : forall e v, text v -> zlen (flat_map utf16_units v) <= 32 -> set_name e v = Ok (mkde (name_image v (de_data e)) (Some v)).
Proof.
  intros e v T L. apply zlen_enc in L. unfold set_name. rewrite encode_utf16_text by auto. cbn [bind]. cbn zeta.
  replace (zlen (enc16 v) <=? 64) with true by lia. unfold pack_at, pack_u.
  pose proof (zlen_nonneg _ (enc16 v)). replace ((0 <=? Z.min (zlen (enc16 v) + 2) 64) && (Z.min (zlen (enc16 v) + 2) 64 <? 256 ^ Z.of_nat 2)) with true
    by (change (256 ^ Z.of_nat 2) with 65536; lia). cbn [bind]. reflexivity.
Qed.

(** the 64 bytes of the name, padded with zeros *)
Definition name_field (v : list Z) : list Z := enc16 v ++ zeros (64 - zlen (enc16 v)).

Lemma name_image_eq : forall v d, zlen d = 128 -> zlen (enc16 v) <= 64 ->
  name_image v d = name_field v ++ le_bytes 2 (Z.min (zlen (enc16 v) + 2) 64) ++ zdrop 66 d.
Proof.
  intros v d L E. pose proof (zlen_nonneg _ (enc16 v)) as P. unfold name_image, name_field.
  assert (Z1 : zlen (zeros (64 - zlen (enc16 v))) = 64 - zlen (enc16 v)) by (apply zlen_zeros; lia).
  assert (Z2 : zlen (le_bytes 2 (Z.min (zlen (enc16 v) + 2) 64)) = 2) by apply zlen_le_bytes.
  remember (enc16 v) as x. remember (zeros (64 - zlen x)) as z. remember (le_bytes 2 (Z.min (zlen x + 2) 64)) as w.
  assert (S1 : zlen (splice 0 x d) = 128) by (rewrite zlen_splice; lia).
  assert (S2 : zlen (splice (zlen x) z (splice 0 x d)) = 128) by (rewrite zlen_splice; lia).
  apply znth_ext.
  - rewrite zlen_splice by lia. rewrite !zlen_app, zlen_zdrop by lia. lia.
  - intros i Hi. rewrite zlen_splice in Hi by lia. rewrite !znth_splice by lia. rewrite Z2, Z1.
    destruct (Z.lt_ge_cases i (zlen x)) as [C|C].
    { replace ((64 <=? i) && (i <? 64 + 2)) with false by lia. replace ((zlen x <=? i) && (i <? zlen x + (64 - zlen x))) with false by lia.
      replace ((0 <=? i) && (i <? 0 + zlen x)) with true by lia. rewrite <- app_assoc, znth_app1 by lia. f_equal. lia. }
    destruct (Z.lt_ge_cases i 64) as [C1|C1].
    { replace ((64 <=? i) && (i <? 64 + 2)) with false by lia. replace ((zlen x <=? i) && (i <? zlen x + (64 - zlen x))) with true by lia.
      rewrite <- app_assoc, znth_app2, znth_app1 by lia. auto. }
    destruct (Z.lt_ge_cases i 66) as [C2|C2].
    { replace ((64 <=? i) && (i <? 64 + 2)) with true by lia. rewrite znth_app2 by (rewrite zlen_app; lia). rewrite znth_app1 by (rewrite zlen_app; lia).
      rewrite zlen_app. f_equal. lia. }
    replace ((64 <=? i) && (i <? 64 + 2)) with false by lia. replace ((zlen x <=? i) && (i <? zlen x + (64 - zlen x))) with false by lia.
    replace ((0 <=? i) && (i <? 0 + zlen x)) with false by lia.
    rewrite znth_app2 by (rewrite zlen_app; lia). rewrite znth_app2 by (rewrite zlen_app; lia). rewrite zlen_app, znth_zdrop by lia. f_equal. lia.
Qed.

Lemma zlen_name_field : forall v, zlen (enc16 v) <= 64 -> zlen (name_field v) = 64.
Proof. intros v H. unfold name_field. rewrite zlen_app, zlen_zeros; lia. Qed.

Lemma name_image_size : forall v d, zlen d = 128 -> zlen (enc16 v) <= 64 -> le_val (slice 64 66 (name_image v d)) = Z.min (zlen (enc16 v) + 2) 64.
Proof.
  intros v d L E. pose proof (zlen_nonneg _ (enc16 v)) as P. unfold name_image. rewrite slice_splice_in.
  - rewrite le_val_le_bytes. apply Z.mod_small. change (256 ^ Z.of_nat 2) with 65536. lia.
  - lia.
  - rewrite zlen_le_bytes. assert (zlen (splice 0 (enc16 v) d) = 128) by (rewrite zlen_splice; lia).
    rewrite zlen_splice; rewrite ?zlen_zeros by lia; lia.
  - rewrite zlen_le_bytes. lia.
Qed.

Lemma decode_name_image : forall v d, zlen d = 128 -> text v -> nul_free v -> zlen (flat_map utf16_units v) <= 32 ->
  decode_utf16le (slice 0 (le_val (slice 64 66 (name_image v d))) (name_image v d)) = v.
Proof.
  intros v d L T N E. apply zlen_enc in E. pose proof (zlen_nonneg _ (enc16 v)) as P. rewrite name_image_size, name_image_eq by auto.
  unfold slice. rewrite zdrop_0 by lia. rewrite Z.sub_0_r, ztake_app1 by (rewrite zlen_name_field; lia).
  unfold name_field. rewrite ztake_app2 by lia. apply Z.le_lteq in E. destruct E as [E|E].
  - assert (E2 : 64 - zlen (enc16 v) >= 2). { pose proof (zlen_enc16 v). lia. }
    replace (ztake (Z.min (zlen (enc16 v) + 2) 64 - zlen (enc16 v)) (zeros (64 - zlen (enc16 v)))) with [0; 0].
    + apply decode_utf16_padded; auto. right. exists []. auto.
    + replace (Z.min (zlen (enc16 v) + 2) 64 - zlen (enc16 v)) with 2 by lia.
      replace (64 - zlen (enc16 v)) with (2 + (62 - zlen (enc16 v))) by lia. rewrite <- zeros_app by lia.
      change 2 with (zlen (zeros 2)) at 1. rewrite ztake_app_exact. reflexivity.
  - rewrite E. change (zeros (64 - 64)) with (@nil Z). replace (ztake (Z.min (64 + 2) 64 - 64) (@nil Z)) with (@nil Z) by reflexivity.
    apply decode_utf16_padded; auto.
Qed.

Lemma name_image_ok : forall v d, image d -> zlen (enc16 v) <= 64 -> image (name_image v d).
Proof.
  intros v d (L & B & N) E. split; [|split].
  - rewrite name_image_eq, !zlen_app, zlen_name_field, zlen_zdrop, zlen_le_bytes by lia. lia.
  - rewrite name_image_eq by auto. unfold name_field. rewrite !bytes_app. repeat split.
    + apply bytes_enc16.
    + apply bytes_zeros.
    + apply le_bytes_bytes.
    + apply Forall_zdrop. auto.
  - rewrite name_image_size by auto. lia.
Qed.

Lemma name_image_out : forall v d i j, zlen d = 128 -> zlen (enc16 v) <= 64 -> 66 <= i <= j -> j <= 128 -> slice i j (name_image v d) = slice i j d.
Proof.
  intros v d i j L E Hi Hj. unfold slice. f_equal. rewrite name_image_eq, app_assoc by auto.
  rewrite zdrop_app2 by (rewrite zlen_app, zlen_name_field, zlen_le_bytes by lia; lia). rewrite zlen_app, zlen_name_field, zlen_le_bytes by lia.
  rewrite zdrop_zdrop by lia. f_equal. lia.
Qed.

Lemma byte_slice : forall d i, 0 <= i < zlen d -> byte_at d i = le_val (slice i (i + 1) d).
Proof.
  intros d i H. unfold byte_at. destruct (znth_in_range _ d i H) as [x E]. rewrite E.
  assert (S : slice i (i + 1) d = [x]).
  { apply znth_ext; [rewrite zlen_slice by lia; change (zlen [x]) with 1; lia|]. intros k Hk. rewrite zlen_slice in Hk by lia.
    rewrite znth_slice by lia. assert (k = 0) by lia. subst. replace (0 <? i + 1 - i) with true by lia. rewrite Z.add_0_r. auto. }
  rewrite S. cbn [le_val]. lia.
Qed.

(** what the getters show depends on these slices of the image only *)
Lemma shown_eq : forall e, valid e -> shown e = Some (
  let d := de_data e in
  let u i j := le_val (slice i j d) in
  mkf (decode_utf16le (slice 0 (u 64 66) d)) (match find (fun kv => fst kv =? u 66 67) dir_types with Some kv => snd kv | None => "unknown"%string end)
      (if u 67 68 =? 1 then "black"%string else "red"%string)
      (decode_sid (u 68 72)) (decode_sid (u 72 76)) (decode_sid (u 76 80))
      (if auid_int (slice 80 96 d) =? 0 then None else Some (slice 80 96 d))
      (u 96 100) (u 100 108) (u 108 116) (decode_sid (u 116 120)) (u 120 128)).
Proof.
  intros e V. destruct (read_name e V) as [e1 E]. unfold shown. rewrite E. cbn zeta.
  destruct V as [(L & _) _]. unfold get_type, get_color. rewrite !byte_slice by lia. reflexivity.
Qed.

(** ** C11 *)
Lemma pack_at_ok : forall n off v d, 0 <= v < 256 ^ Z.of_nat n -> pack_at n off v d = Ok (splice off (le_bytes n v) d).
Proof. intros n off v d H. unfold pack_at. rewrite (proj2 (pack_u_Ok n v (le_bytes n v))) by auto. reflexivity. Qed.

Lemma le_val_pack : forall n v, 0 <= v < 256 ^ Z.of_nat n -> le_val (le_bytes n v) = v.
Proof. intros. rewrite le_val_le_bytes. apply Z.mod_small. auto. Qed.

Lemma sid_round : forall v, sid_ok v -> 0 <= encode_sid v < 256 ^ Z.of_nat 4 /\ decode_sid (encode_sid v) = v.
Proof.
  intros [v|] H; cbn [encode_sid]; unfold decode_sid; change (256 ^ Z.of_nat 4) with 4294967296; cbn in H.
  - replace (v =? 4294967295) with false by lia. split; [lia|auto].
  - split; [lia|reflexivity].
Qed.

Lemma class_splice : forall e c, zlen (de_data e) = 128 -> zlen c = 16 ->
  mkde (ztake 80 (de_data e) ++ c ++ zdrop 96 (de_data e)) (de_name e) = mkde (splice 80 c (de_data e)) (de_name e).
Proof. intros e c L H. unfold splice. rewrite H. reflexivity. Qed.

Lemma auid_int_zero : forall c, bytes c -> zlen c = 16 -> (auid_int c = 0 <-> c = zeros 16).
Proof.
  intros c B L. assert (A : auid c) by (split; auto; unfold zlen in L; lia). split.
  - intros E. pose proof (of_int_int c A) as H. rewrite E in H. unfold auid_of_int in H. rewrite Z.eqb_refl in H. injection H as H. rewrite <- H. reflexivity.
  - intros ->. reflexivity.
Qed.

Ltac outs L := repeat rewrite (slice_splice_out _ _ _ _ _) by (rewrite ?L, ?zlen_le_bytes; cbn [zlen length]; try (change (zlen [_]) with 1); lia).

(** the fields shown after overwriting the bytes of one field other than the name *)
Lemma shown_splice : forall e off b, valid e -> bytes b -> 66 <= off -> off + zlen b <= 128 ->
  let d := de_data e in
  let d' := splice off b d in
  let u i j := le_val (slice i j (if (j <=? off) || (off + zlen b <=? i) then d else d')) in
  let cl := slice 80 96 (if (96 <=? off) || (off + zlen b <=? 80) then d else d') in
  valid (mkde d' (de_name e)) /\ shown (mkde d' (de_name e)) = Some (
  mkf (decode_utf16le (slice 0 (u 64 66) d)) (match find (fun kv => fst kv =? u 66 67) dir_types with Some kv => snd kv | None => "unknown"%string end)
      (if u 67 68 =? 1 then "black"%string else "red"%string)
      (decode_sid (u 68 72)) (decode_sid (u 72 76)) (decode_sid (u 76 80))
      (if auid_int cl =? 0 then None else Some cl)
      (u 96 100) (u 100 108) (u 108 116) (decode_sid (u 116 120)) (u 120 128)).
Proof.
  intros e off b V B H1 H2. cbn zeta. pose proof (zlen_nonneg _ b) as Pb. pose proof V as [(L & Bd & Ns) _].
  assert (V' : valid (mkde (splice off b (de_data e)) (de_name e))) by (apply valid_splice; auto). split; auto.
  rewrite shown_eq by auto. cbn zeta. cbn [de_data].
  assert (S : forall i j, 0 <= i <= j -> j <= 128 -> slice i j (splice off b (de_data e)) =
    slice i j (if (j <=? off) || (off + zlen b <=? i) then de_data e else splice off b (de_data e))).
  { intros i j Hi Hj. destruct ((j <=? off) || (off + zlen b <=? i)) eqn:O; auto. rewrite slice_splice_out by lia. auto. }
  rewrite <- !S by lia. pose proof (le_val_range _ (Forall_slice _ _ 64 66 _ Bd)).
  rewrite (slice_splice_out _ _ _ 64 66) by lia. rewrite (slice_splice_out _ _ _ 0) by lia. reflexivity.
Qed.

Lemma set_field : forall e off n v, valid e -> 0 <= v < 256 ^ Z.of_nat n -> 66 <= off -> off + Z.of_nat n <= 128 ->
  let e' := mkde (splice off (le_bytes n v) (de_data e)) (de_name e) in
  valid e' /\ le_val (slice off (off + Z.of_nat n) (de_data e')) = v.
Proof.
  intros e off n v V H H1 H2. cbn zeta. pose proof V as [(L & _) _]. split.
  - apply valid_splice; auto using le_bytes_bytes. rewrite zlen_le_bytes. auto.
  - cbn [de_data]. rewrite slice_splice_in; rewrite ?zlen_le_bytes; auto; try lia. apply le_val_pack. auto.
Qed.

(** Setting a field: it reads back as set, every other field keeps its value. [valid] admits any
    128 byte image whose name length is at most 64, so the previous contents are arbitrary. *)
Theorem C11_set : forall e a f, valid e -> legal a -> shown e = Some f ->
  exists e', assign e a = Ok e' /\ valid e' /\ shown e' = Some (upd f a).
Proof.
  intros e a f V G S. rewrite shown_eq in S by auto. apply (f_equal (fun x => match x with Some y => y | None => f end)) in S. cbn zeta in S. subst f.
  pose proof V as [(L & B & NS) _]. unfold upd.
  assert (P1 : forall off j n v, 66 <= off -> off + Z.of_nat n <= 128 -> 0 <= v < 256 ^ Z.of_nat n -> j = off + Z.of_nat n ->
     slice off j (splice off (le_bytes n v) (de_data e)) = le_bytes n v).
  { intros off j n v H H1 H2 ->. apply slice_splice_in; rewrite ?zlen_le_bytes; lia. }
  assert (P0 : forall off j x, 66 <= off < 128 -> j = off + 1 -> slice off j (splice off [x] (de_data e)) = [x]).
  { intros off j x H ->. apply slice_splice_in; change (zlen [x]) with 1; lia. }
  assert (B1 : forall x, is_byte x -> bytes [x]) by (intros; repeat constructor; apply H).
  destruct a as [v|v|v|v|v|v|v|v|v|v|v|v|v]; cbn [legal assign] in *.
  - (* name *)
    destruct G as (T & N & Z32). rewrite set_name_ok by auto. eexists. split; [reflexivity|].
    pose proof (zlen_enc _ Z32) as E64.
    assert (V' : valid (mkde (name_image v (de_data e)) (Some v))).
    { split; [apply name_image_ok; auto; apply V|]. cbn [de_name de_data]. rewrite decode_name_image; auto. }
    split; auto. rewrite shown_eq by auto. cbn zeta. cbn [de_data]. rewrite decode_name_image by auto.
    rewrite !(name_image_out v (de_data e)) by (auto; lia). reflexivity.
  - (* type *)
    assert (Q : exists k, find (fun kv => String.eqb (snd kv) v) dir_types = Some (k, v) /\ is_byte k /\
       find (fun kv => fst kv =? le_val [k]) dir_types = Some (k, v)).
    { repeat (destruct G as [<-|G]; [eexists; split; [reflexivity|split; [unfold is_byte; lia|reflexivity]]|]). destruct G. }
    destruct Q as (k & F1 & Bk & F2). unfold set_type. rewrite F1. cbn [fst]. eexists. split; [reflexivity|].
    destruct (shown_splice e 66 [k] V (B1 k Bk) ltac:(lia) ltac:(change (zlen [k]) with 1; lia)) as [V' S'].
    cbn zeta in S'. split; [exact V'|]. rewrite S'. change (zlen [k]) with 1. cbn [Z.leb Z.compare Pos.compare Pos.compare_cont orb Z.add Pos.add Pos.succ Pos.add_carry].
    rewrite (P0 66 67 k) by lia. rewrite F2. reflexivity.
  - (* colour *)
    assert (Q : exists k, set_color e v = Ok (mkde (splice 67 [k] (de_data e)) (de_name e)) /\ is_byte k /\ (if (k =? 1)%Z then "black"%string else "red"%string) = v).
    { destruct G as [-> | ->]; eexists; (split; [reflexivity|]); split; try reflexivity; unfold is_byte; lia. }
    destruct Q as (k & -> & Bk & F2). eexists. split; [reflexivity|].
    destruct (shown_splice e 67 [k] V (B1 k Bk) ltac:(lia) ltac:(change (zlen [k]) with 1; lia)) as [V' S'].
    cbn zeta in S'. split; [exact V'|]. rewrite S'. change (zlen [k]) with 1. cbn [Z.leb Z.compare Pos.compare Pos.compare_cont orb Z.add Pos.add Pos.succ Pos.add_carry].
    rewrite (P0 67 68 k) by lia. cbn [le_val]. rewrite Z.add_0_r. rewrite F2. reflexivity.
  - (* red *)
    eexists. split; [reflexivity|]. unfold set_red. set (k := if v then 0 else 1).
    assert (Bk : is_byte k) by (destruct v; unfold is_byte, k; lia).
    destruct (shown_splice e 67 [k] V (B1 k Bk) ltac:(lia) ltac:(change (zlen [k]) with 1; lia)) as [V' S'].
    cbn zeta in S'. split; [exact V'|]. rewrite S'. change (zlen [k]) with 1. cbn [Z.leb Z.compare Pos.compare Pos.compare_cont orb Z.add Pos.add Pos.succ Pos.add_carry].
    rewrite (P0 67 68 k) by lia. cbn [le_val]. rewrite Z.add_0_r. destruct v; reflexivity.
  - destruct (sid_round v G) as [R1 R2]. unfold set_left_id, set_sid. rewrite pack_at_ok by auto. cbn [bind]. eexists. split; [reflexivity|].
    destruct (shown_splice e 68 (le_bytes 4 (encode_sid v)) V (le_bytes_bytes _ _) ltac:(lia) ltac:(rewrite zlen_le_bytes; lia)) as [V' S'].
    cbn zeta in S'. split; [exact V'|]. rewrite S'. rewrite zlen_le_bytes. cbn [Z.leb Z.compare Pos.compare Pos.compare_cont orb Z.add Z.of_nat Pos.of_succ_nat Pos.add Pos.succ Pos.add_carry].
    rewrite (P1 68 72 4%nat) by (auto; lia). rewrite le_val_pack, R2 by auto. reflexivity.
  - destruct (sid_round v G) as [R1 R2]. unfold set_right_id, set_sid. rewrite pack_at_ok by auto. cbn [bind]. eexists. split; [reflexivity|].
    destruct (shown_splice e 72 (le_bytes 4 (encode_sid v)) V (le_bytes_bytes _ _) ltac:(lia) ltac:(rewrite zlen_le_bytes; lia)) as [V' S'].
    cbn zeta in S'. split; [exact V'|]. rewrite S'. rewrite zlen_le_bytes. cbn [Z.leb Z.compare Pos.compare Pos.compare_cont orb Z.add Z.of_nat Pos.of_succ_nat Pos.add Pos.succ Pos.add_carry].
    rewrite (P1 72 76 4%nat) by (auto; lia). rewrite le_val_pack, R2 by auto. reflexivity.
  - destruct (sid_round v G) as [R1 R2]. unfold set_child_id, set_sid. rewrite pack_at_ok by auto. cbn [bind]. eexists. split; [reflexivity|].
    destruct (shown_splice e 76 (le_bytes 4 (encode_sid v)) V (le_bytes_bytes _ _) ltac:(lia) ltac:(rewrite zlen_le_bytes; lia)) as [V' S'].
    cbn zeta in S'. split; [exact V'|]. rewrite S'. rewrite zlen_le_bytes. cbn [Z.leb Z.compare Pos.compare Pos.compare_cont orb Z.add Z.of_nat Pos.of_succ_nat Pos.add Pos.succ Pos.add_carry].
    rewrite (P1 76 80 4%nat) by (auto; lia). rewrite le_val_pack, R2 by auto. reflexivity.
  - (* class id *)
    set (c := match v with None => zeros 16 | Some a => a end).
    assert (Q : bytes c /\ zlen c = 16 /\ (if auid_int c =? 0 then None else Some c) = v).
    { destruct v as [c0|]; subst c.
      - destruct G as (Gb & Gl & x & Ix & Nx). split; auto. split; auto. destruct (auid_int c0 =? 0) eqn:E; auto.
        apply Z.eqb_eq, auid_int_zero in E; auto. subst c0. apply repeat_spec in Ix. lia.
      - split; [apply bytes_zeros|]. split; [reflexivity|]. reflexivity. }
    destruct Q as (Bc & Lc & Q). eexists. split; [reflexivity|]. unfold set_class_id. fold c. rewrite class_splice by auto.
    destruct (shown_splice e 80 c V Bc ltac:(lia) ltac:(lia)) as [V' S'].
    cbn zeta in S'. split; [exact V'|]. rewrite S'. rewrite Lc. cbn [Z.leb Z.compare Pos.compare Pos.compare_cont orb Z.add Z.of_nat Pos.of_succ_nat Pos.add Pos.succ Pos.add_carry].
    rewrite (slice_splice_in (de_data e) c 80 96) by lia. rewrite Q. reflexivity.
  - unfold set_flags. rewrite pack_at_ok by auto. cbn [bind]. eexists. split; [reflexivity|].
    destruct (shown_splice e 96 (le_bytes 4 v) V (le_bytes_bytes _ _) ltac:(lia) ltac:(rewrite zlen_le_bytes; lia)) as [V' S'].
    cbn zeta in S'. split; [exact V'|]. rewrite S'. rewrite zlen_le_bytes. cbn [Z.leb Z.compare Pos.compare Pos.compare_cont orb Z.add Z.of_nat Pos.of_succ_nat Pos.add Pos.succ Pos.add_carry].
    rewrite (P1 96 100 4%nat) by (auto; lia). rewrite le_val_pack by auto. reflexivity.
  - unfold set_create_time. rewrite pack_at_ok by auto. cbn [bind]. eexists. split; [reflexivity|].
    destruct (shown_splice e 100 (le_bytes 8 v) V (le_bytes_bytes _ _) ltac:(lia) ltac:(rewrite zlen_le_bytes; lia)) as [V' S'].
    cbn zeta in S'. split; [exact V'|]. rewrite S'. rewrite zlen_le_bytes. cbn [Z.leb Z.compare Pos.compare Pos.compare_cont orb Z.add Z.of_nat Pos.of_succ_nat Pos.add Pos.succ Pos.add_carry].
    rewrite (P1 100 108 8%nat) by (auto; lia). rewrite le_val_pack by auto. reflexivity.
  - destruct G.
  - destruct (sid_round v G) as [R1 R2]. unfold set_sector_id, set_sid. rewrite pack_at_ok by auto. cbn [bind]. eexists. split; [reflexivity|].
    destruct (shown_splice e 116 (le_bytes 4 (encode_sid v)) V (le_bytes_bytes _ _) ltac:(lia) ltac:(rewrite zlen_le_bytes; lia)) as [V' S'].
    cbn zeta in S'. split; [exact V'|]. rewrite S'. rewrite zlen_le_bytes. cbn [Z.leb Z.compare Pos.compare Pos.compare_cont orb Z.add Z.of_nat Pos.of_succ_nat Pos.add Pos.succ Pos.add_carry].
    rewrite (P1 116 120 4%nat) by (auto; lia). rewrite le_val_pack, R2 by auto. reflexivity.
  - unfold set_byte_size. rewrite pack_at_ok by auto. cbn [bind]. eexists. split; [reflexivity|].
    destruct (shown_splice e 120 (le_bytes 8 v) V (le_bytes_bytes _ _) ltac:(lia) ltac:(rewrite zlen_le_bytes; lia)) as [V' S'].
    cbn zeta in S'. split; [exact V'|]. rewrite S'. rewrite zlen_le_bytes. cbn [Z.leb Z.compare Pos.compare Pos.compare_cont orb Z.add Z.of_nat Pos.of_succ_nat Pos.add Pos.succ Pos.add_carry].
    rewrite (P1 120 128 8%nat) by (auto; lia). rewrite le_val_pack by auto. reflexivity.
Qed.
Print Assumptions C11_set.

Lemma valid_load : forall e, valid e -> valid (dent_load (de_data e)).
Proof. intros e [I _]. split; auto. cbn. auto. Qed.

(** The image alone decodes to the fields the object shows. *)
Theorem C11_image : forall e, valid e -> exists f, shown e = Some f /\ shown (dent_load (de_data e)) = Some f.
Proof.
  intros e V. eexists. split; [apply shown_eq; auto|]. rewrite shown_eq by (apply valid_load; auto). reflexivity.
Qed.
Print Assumptions C11_image.

(** All orders of assignment, from any image: the final image decodes to the fields the record
    has after the same assignments. Refused assignments (C11_refused) may be interleaved. *)
Definition refused (a : assignment) : Prop :=
  match a with
  | AName v => ~ text v \/ 32 < zlen (flat_map utf16_units v)
  | AType v => ~ In v ["empty"; "storage"; "stream"; "lock bytes"; "property"; "root storage"]%string
  | AColor v => v <> "black"%string /\ v <> "red"%string
  | ARed _ => False
  | ALeft v | ARight v | AChild v | ASector v => match v with None => False | Some x => ~ (0 <= x < 2 ^ 32) end
  | AClass _ => False
  | AFlags v => ~ (0 <= v < 2 ^ 32)
  | ACreate v | ASize v => ~ (0 <= v < 2 ^ 64)
  | AModify _ => True
  end.

Lemma pack_at_bad : forall n off v d, ~ (0 <= v < 256 ^ Z.of_nat n) -> pack_at n off v d = Err StructError.
Proof.
  intros n off v d H. unfold pack_at, pack_u. destruct ((0 <=? v) && (v <? 256 ^ Z.of_nat n)) eqn:E; auto. exfalso. apply H.
  apply andb_true_iff in E. rewrite Z.leb_le, Z.ltb_lt in E. auto.
Qed.

Theorem C11_refused : forall e a, refused a -> exists x, assign e a = Err x.
Proof.
  intros e a H. destruct a as [v|v|v|v|v|v|v|v|v|v|v|v|v]; cbn [refused assign] in *; try (destruct H; fail).
  - unfold set_name. destruct (encode_utf16 v) as [d|x] eqn:E; [|eexists; reflexivity]. apply encode_utf16_Ok in E. destruct E as [T ->].
    destruct H as [H|H]; [tauto|]. cbn [bind]. cbn zeta. rewrite zlen_enc16.
    replace (2 * zlen (flat_map utf16_units v) <=? 64) with false by lia. eexists. reflexivity.
  - unfold set_type. destruct (find _ dir_types) as [[k s]|] eqn:F; [|eexists; reflexivity]. exfalso. apply H.
    apply find_some in F. destruct F as [I E]. cbn [snd] in E. apply String.eqb_eq in E. subst s.
    cbn in I. repeat (destruct I as [I|I]; [injection I as <- <-; cbn; tauto|]). destruct I.
  - unfold set_color. destruct H as [H1 H2]. rewrite (proj2 (String.eqb_neq v "black") H1), (proj2 (String.eqb_neq v "red") H2). eexists. reflexivity.
  - destruct v; [|tauto]. unfold set_left_id, set_sid. rewrite pack_at_bad by exact H. eexists. reflexivity.
  - destruct v; [|tauto]. unfold set_right_id, set_sid. rewrite pack_at_bad by exact H. eexists. reflexivity.
  - destruct v; [|tauto]. unfold set_child_id, set_sid. rewrite pack_at_bad by exact H. eexists. reflexivity.
  - unfold set_flags. rewrite pack_at_bad by exact H. eexists. reflexivity.
  - unfold set_create_time. rewrite pack_at_bad by exact H. eexists. reflexivity.
  - eexists. reflexivity.
  - destruct v; [|tauto]. unfold set_sector_id, set_sid. rewrite pack_at_bad by exact H. eexists. reflexivity.
  - unfold set_byte_size. rewrite pack_at_bad by exact H. eexists. reflexivity.
Qed.
Print Assumptions C11_refused.

Fixpoint upds (f : fields) (l : list assignment) (ok : assignment -> bool) : fields :=
  match l with
  | [] => f
  | a :: r => upds (if ok a then upd f a else f) r ok
  end.

Theorem C11_any_order : forall l (ok : assignment -> bool) e f, valid e -> shown e = Some f ->
  Forall (fun a => if ok a then legal a else refused a) l ->
  let e' := assign_all e l in
  valid e' /\ shown e' = Some (upds f l ok) /\ shown (dent_load (de_data e')) = Some (upds f l ok).
Proof.
  induction l as [|a l IH]; intros ok e f V S F; cbn zeta.
  - cbn. split; auto. split; auto. destruct (C11_image e V) as (g & G1 & G2). rewrite S in G1. inversion G1; subst. auto.
  - inversion F as [|? ? Ha F']; subst. unfold assign_all. cbn [fold_left upds]. destruct (ok a).
    + destruct (C11_set e a f V Ha S) as (e1 & E1 & V1 & S1). rewrite E1. apply (IH ok e1 (upd f a)); auto.
    + destruct (C11_refused e a Ha) as (x & E1). rewrite E1. apply (IH ok e f); auto.
Qed.
Print Assumptions C11_any_order.

(** A new entry (cfb.py:476-483): a valid image without name, links, class or data. *)
Theorem C11_blank : exists e, dent_blank = Ok e /\ valid e /\
  shown e = Some (mkf [] "empty" "red" None None None None 0 0 0 None 0).
Proof.
  eexists. split; [vm_compute; reflexivity|]. split.
  - split; [|cbn; auto]. split; [reflexivity|]. split; [|vm_compute; discriminate].
    cbn [de_data]. repeat (apply Forall_cons; [unfold is_byte; lia|]). apply Forall_nil.
  - vm_compute. reflexivity.
Qed.
Print Assumptions C11_blank.

(** not vacuous: three assignments on a new entry *)
Example C11_example : exists e, dent_blank = Ok e /\
  shown (dent_load (de_data (assign_all e [AName [72; 8364; 128512]; ASize 70000; AModify 5; AType "stream"; ASector (Some 12); AName [72]]))) =
  Some (mkf [72] "stream" "red" None None None None 0 0 0 (Some 12) 70000).
Proof. eexists. split; [reflexivity|]. vm_compute. reflexivity. Qed.

(** modify_time cannot be set at all, although it has a setter. *)
Theorem C11_modify_time_refuted : forall e v, assign e (AModify v) = Err TypeError.
Proof. reflexivity. Qed.
Print Assumptions C11_modify_time_refuted.

(** Two values are accepted but not read back: the zero AUID and the sector number 0xFFFFFFFF. *)
Lemma shown_get : forall e g, shown e = Some g -> get_class_id e = f_class g /\ get_sector_id e = f_sector g.
Proof. intros e g H. unfold shown in H. destruct (get_name e) as [[e1 n]|x]; [|discriminate]. injection H as <-. cbn [f_class f_sector]. split; reflexivity. Qed.

Theorem C11_zero_class_refuted : forall e, valid e -> exists e', assign e (AClass (Some (zeros 16))) = Ok e' /\ get_class_id e' = None.
Proof.
  intros e V. destruct (C11_image e V) as (f & S & _). destruct (C11_set e (AClass None) f V I S) as (e' & E & V' & S'). exists e'.
  assert (Q : assign e (AClass (Some (zeros 16))) = assign e (AClass None)) by (cbn [assign]; unfold set_class_id; reflexivity).
  split; [rewrite Q; exact E|]. apply shown_get in S'. destruct S' as [-> _]. destruct f. reflexivity.
Qed.
Print Assumptions C11_zero_class_refuted.

Theorem C11_sid_mark_refuted : forall e, valid e -> exists e', assign e (ASector (Some 4294967295)) = Ok e' /\ get_sector_id e' = None.
Proof.
  intros e V. destruct (C11_image e V) as (f & S & _). destruct (C11_set e (ASector None) f V I S) as (e' & E & V' & S'). exists e'.
  assert (Q : assign e (ASector (Some 4294967295)) = assign e (ASector None)) by (cbn [assign]; unfold set_sector_id, set_sid; cbn [encode_sid]; reflexivity).
  split; [rewrite Q; exact E|]. apply shown_get in S'. destruct S' as [_ ->]. destruct f. reflexivity.
Qed.
Print Assumptions C11_sid_mark_refuted.

(** ** C12 *)

(** Any name of at most 32 UTF-16 units without NUL is stored and read back, from the object
    and from its image, whatever the image held before. *)
Theorem C12_round : forall e v, image (de_data e) -> name_ok v ->
  exists e', set_name e v = Ok e' /\ image (de_data e') /\
    (exists e1, get_name e' = Ok (e1, v)) /\ (exists e2, get_name (dent_load (de_data e')) = Ok (e2, v)) /\
    zdrop 66 (de_data e') = zdrop 66 (de_data e).
Proof.
  intros e v Im (T & N & Z). rewrite set_name_ok by auto. eexists. split; [reflexivity|]. pose proof (zlen_enc _ Z) as Z2.
  cbn [de_data]. pose proof (name_image_ok v _ Im Z2) as Im'. split; auto. split.
  - eexists. cbn. reflexivity.
  - split.
    + destruct (read_name (dent_load (name_image v (de_data e)))) as [e2 E2]; [split; cbn; auto|].
      cbn [dent_load de_data] in E2. rewrite decode_name_image in E2; auto; [|apply Im]. eexists. exact E2.
    + rewrite name_image_eq, app_assoc by (auto; apply Im).
      assert (Q : zlen (name_field v ++ le_bytes 2 (Z.min (zlen (enc16 v) + 2) 64)) = 66) by (rewrite zlen_app, zlen_name_field, zlen_le_bytes by auto; reflexivity).
      rewrite <- Q at 1. apply zdrop_app_exact.
Qed.
Print Assumptions C12_round.

(** A longer name is refused and nothing is stored. *)
Theorem C12_refused : forall e v, text v -> 32 < zlen (flat_map utf16_units v) -> set_name e v = Err AssertionError.
Proof.
  intros e v T H. unfold set_name. rewrite encode_utf16_text by auto. cbn [bind]. cbn zeta. rewrite zlen_enc16.
  replace (2 * zlen (flat_map utf16_units v) <=? 64) with false by lia. reflexivity.
Qed.
Print Assumptions C12_refused.

(** the limit counts UTF-16 units: a character outside the BMP takes two *)
Lemma repeat_name : forall c n, scalar c -> c <> 0 -> zlen (flat_map utf16_units (repeat c n)) <= 32 -> name_ok (repeat c n).
Proof.
  intros c n H N L. split; [|split]; auto.
  - apply Forall_forall. intros x I. apply repeat_spec in I. subst. auto.
  - intros I. apply repeat_spec in I. auto.
Qed.
Example C12_example : name_ok (repeat 128512 16) /\ ~ name_ok (repeat 128512 17) /\ name_ok (repeat 65 32) /\ ~ name_ok (repeat 65 33).
Proof.
  split; [apply repeat_name; [right; lia|lia|vm_compute; discriminate]|].
  split; [intros (_ & _ & H); vm_compute in H; apply H; reflexivity|].
  split; [apply repeat_name; [left; lia|lia|vm_compute; discriminate]|].
  intros (_ & _ & H). vm_compute in H. apply H. reflexivity.
Qed.

(** With a NUL in it the name is accepted, but the image holds only the part before it. *)
Theorem C12_nul_refuted : exists e e' e2, dent_blank = Ok e /\ set_name e [65; 0; 66] = Ok e' /\
  get_name e' = Ok (e', [65; 0; 66]) /\ get_name (dent_load (de_data e')) = Ok (e2, [65]).
Proof. eexists. eexists. eexists. split; [reflexivity|]. split; [reflexivity|]. split; [reflexivity|]. vm_compute. reflexivity. Qed.
Print Assumptions C12_nul_refuted.
