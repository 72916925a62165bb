(** C40-C45 and C58: property values (src/aaf2/types.py, src/aaf2/rational.py). *)
From Verif Require Import Base BaseFacts Codec CodecFacts Text TextFacts TypesModel IdsFacts TypesFacts TypesRound.
From Coq Require Import ZArith List Bool Lia String.
Import ListNotations.
Open Scope Z_scope.

Section Props.
(** any str.lower, any order of iterating a set *)
Variable lower : list Z -> list Z.
Variable set_iter : list val -> list val.
Notation enc := (encode lower set_iter).
Notation dec := (decode).

(** ** C40 *)

(** Two's complement little-endian storage of exactly [size] bytes. *)
Theorem C40_int_roundtrip : forall size sg z, int_size size -> int_range size sg z ->
  exists d, enc (TInt size sg) (VInt z) = Ok d /\ dec (TInt size sg) d = Ok (VInt z) /\
    bytes d /\ zlen d = size /\ le_val d = z mod 2 ^ (8 * size).
Proof.
  intros size sg z Hs Hz. destruct (int_roundtrip size sg z Hs Hz) as (d & E & B & L & D). exists d. repeat split; auto.
  cbn [encode] in E. unfold int_encode in E. rewrite int_fmt_ok in E by auto. cbn [bind] in E.
  replace (2 ^ (8 * size)) with (256 ^ Z.of_nat (Z.to_nat size)) by (destruct Hs as [->|[->|[->| ->]]]; reflexivity).
  destruct sg; cbn [pack_int] in E.
  - apply pack_s_Ok in E. destruct E as [_ ->]. rewrite le_val_le_bytes. apply Z.mod_mod. pose proof (pow256_pos (Z.to_nat size)). lia.
  - apply pack_u_Ok in E. destruct E as [_ ->]. apply le_val_le_bytes.
Qed.

(** The values refused are exactly those out of range. *)
Theorem C40_int_refused : forall size sg z, int_size size -> (enc (TInt size sg) (VInt z) = Err StructError <-> ~ int_range size sg z).
Proof.
  intros size sg z Hs. split.
  - intros E Hz. destruct (C40_int_roundtrip size sg z Hs Hz) as (d & E' & _). congruence.
  - intros Hz. cbn. unfold int_encode. rewrite int_fmt_ok by auto. cbn [bind]. apply pack_int_bad; auto.
Qed.

(** True and False are stored as 1 and 0. *)
Theorem C40_bool : forall size sg b, int_size size -> enc (TInt size sg) (VBool b) = enc (TInt size sg) (VInt (if b then 1 else 0)).
Proof. reflexivity. Qed.

(** Integers of other sizes than 1, 2, 4 and 8 bytes are neither written nor read. *)
Theorem C40_size_refused : forall size sg, ~ int_size size ->
  (forall z, enc (TInt size sg) (VInt z) = Err PropertyError) /\ (forall d, zlen d = size -> dec (TInt size sg) d = Err PropertyError) /\
  (forall l, enc (TVar (TInt size sg)) (VSeq l) = Err PropertyError).
Proof.
  intros size sg H. split; [|split].
  - intros z. cbn [encode]. unfold int_encode. rewrite int_fmt_bad by auto. reflexivity.
  - intros d L. cbn [decode]. unfold int_decode. rewrite L, Z.eqb_refl, int_fmt_bad by auto. reflexivity.
  - intros l. cbn [encode]. rewrite int_fmt_bad by auto. reflexivity.
Qed.

(** Only buffers of the right size decode, and each decodes to a value in range. *)
Theorem C40_int_decode_total : forall size sg d, int_size size -> bytes d ->
  (zlen d = size -> exists z, dec (TInt size sg) d = Ok (VInt z) /\ int_range size sg z /\ enc (TInt size sg) (VInt z) = Ok d) /\
  (zlen d <> size -> dec (TInt size sg) d = Err AssertionError).
Proof.
  intros size sg d Hs B. split; intros L.
  - assert (Ln : List.length d = Z.to_nat size) by (unfold zlen in L; lia). assert (R := le_val_range d B).
    set (M := 256 ^ Z.of_nat (Z.to_nat size)). assert (EM : 256 ^ zlen d = M) by (unfold M; f_equal; unfold zlen; lia). rewrite EM in R.
    assert (Eb : le_bytes (Z.to_nat size) (le_val d) = d) by (rewrite <- Ln; apply le_bytes_le_val; auto).
    assert (Ev : M = 2 * (M / 2)) by (apply pow256_even; unfold int_size in Hs; lia).
    exists (if sg then to_signed (Z.to_nat size) (le_val d) else le_val d). cbn [decode encode]. unfold int_decode, int_encode. rewrite int_fmt_ok by auto.
    rewrite L, Z.eqb_refl. cbn [bind]. destruct sg; cbn [unpack_int pack_int].
    + unfold unpack_s. rewrite L. replace (size =? Z.of_nat (Z.to_nat size)) with true by (unfold int_size in Hs; lia). cbn [bind]. split; auto.
      assert (Rs : - (M / 2) <= to_signed (Z.to_nat size) (le_val d) < M / 2 /\ to_signed (Z.to_nat size) (le_val d) mod M = le_val d).
      { unfold to_signed. fold M. destruct (Z.ltb_spec (le_val d) (M / 2)).
        - split; [lia|]. apply Z.mod_small. lia.
        - split; [lia|]. symmetry. apply Z.mod_unique with (q := -1); lia. }
      split; [apply int_range_spec; auto; fold M; tauto|]. unfold pack_s. fold M. destruct Rs as [R1 R2].
      replace ((- (M / 2) <=? to_signed (Z.to_nat size) (le_val d)) && (to_signed (Z.to_nat size) (le_val d) <? M / 2)) with true by lia. rewrite R2, Eb. auto.
    + unfold unpack_u. rewrite L. replace (size =? Z.of_nat (Z.to_nat size)) with true by (unfold int_size in Hs; lia). cbn [bind]. split; auto.
      split; [apply int_range_spec; auto|]. unfold pack_u. fold M. replace ((0 <=? le_val d) && (le_val d <? M)) with true by lia. rewrite Eb. auto.
  - cbn. unfold int_decode. replace (zlen d =? size) with false by lia. auto.
Qed.

(** ** The general round trip, over all types and all values a type holds ([okval], TypesRound).
    The stored size is the type's byte_size where it has one. *)
Theorem C44_value_roundtrip_partial : forall t v, okval lower t v ->
  exists d, enc t v = Ok d /\ dec t d = Ok v /\ bytes d /\ (forall n, byte_size t = Ok n -> zlen d = n).
Proof. intros t v H. destruct (value_roundtrip lower set_iter t v H) as (d & E & B & D & L). exists d. auto. Qed.

(** ** C41 *)

Theorem C41_int_array_roundtrip_partial : forall size sg l, int_size size -> Forall (int_range size sg) l ->
  exists d, enc (TVar (TInt size sg)) (VSeq (map VInt l)) = Ok d /\ dec (TVar (TInt size sg)) d = Ok (VSeq (map VInt l)).
Proof.
  intros size sg l Hs Hl. destruct (C44_value_roundtrip_partial (TVar (TInt size sg)) (VSeq (map VInt l))) as (d & E & D & _); [|eauto]. split; auto. exists l. auto.
Qed.

Theorem C41_array_roundtrip_partial : forall el n l, plain_el el -> byte_size el = Ok n -> 0 < n -> Forall (okval lower el) l ->
  exists d, enc (TVar el) (VSeq l) = Ok d /\ dec (TVar el) d = Ok (VSeq l) /\ zlen d = n * zlen l.
Proof.
  intros el n l Hp Hn Pn Hl. assert (HR : Forall (fun v => round lower set_iter el v) l).
  { eapply Forall_impl; [|apply Hl]. intros v Hv. apply value_roundtrip. auto. }
  destruct (var_round lower set_iter el n l Hp Hn Pn HR) as (d & E & B & D & _).
  destruct (items_round lower set_iter el n Hn Pn l HR) as (e & E' & _ & L & _). rewrite enc_var in E by auto. exists d. rewrite enc_var by auto. split; auto. split; auto. congruence.
Qed.

(** A set decodes to the same members, whatever the order it was written in. *)
Theorem C41_set_roundtrip_partial : (forall l x, In x (set_iter l) <-> In x l) -> forall el n l, byte_size el = Ok n -> 0 < n -> Forall (okval lower el) l ->
  exists d l', enc (TSet el) (VSet l) = Ok d /\ dec (TSet el) d = Ok (VSet l') /\ forall x, In x l' <-> In x l.
Proof.
  intros HS el n l Hn Pn Hl. assert (HR : Forall (fun v => round lower set_iter el v) (set_iter l)).
  { apply Forall_forall. intros v Hv. apply (proj1 (HS l v)) in Hv. apply value_roundtrip. rewrite Forall_forall in Hl. auto. }
  destruct (items_round lower set_iter el n Hn Pn _ HR) as (e & E & _ & L & D). exists e, (set_iter l). cbn [encode decode]. split; auto. split; [|apply HS].
  rewrite Hn. cbn [bind]. replace (n =? 0) with false by lia. cbn [negb]. rewrite L, Z.mul_comm, Z.div_mul by lia. unfold zlen at 1. rewrite Nat2Z.id.
  specialize (D [] []). rewrite app_nil_r in D. cbn [app] in D. change (zlen (@nil Z)) with 0 in D. rewrite D. auto.
Qed.

Lemma encode_fixed_items : forall (f : val -> result (list Z)) l left, zlen l <= left -> encode_fixed f left l = encode_items f l.
Proof.
  induction l as [|v l IH]; intros left H; auto. cbn [encode_fixed encode_items]. rewrite zlen_cons in H. pose proof (zlen_nonneg _ l).
  replace (0 <? left) with true by lia. destruct (f v); cbn [bind]; auto. rewrite IH by lia. auto.
Qed.
Lemma encode_fixed_many : forall (f : val -> result (list Z)) l left, 0 <= left < zlen l -> Forall (fun v => exists d, f v = Ok d) l -> encode_fixed f left l = Err PropertyError.
Proof.
  induction l as [|v l IH]; intros left H F; [rewrite zlen_nil in H; lia|]. cbn [encode_fixed]. rewrite zlen_cons in H. inversion F as [|? ? [d Hd] F']; subst.
  destruct (Z.ltb_spec 0 left); auto. rewrite Hd. cbn [bind]. rewrite IH by (auto; lia). auto.
Qed.
Lemma encode_items_ints : forall size sg l, int_size size -> encode_items (enc (TInt size sg)) (map VInt l) = pack_all sg (Z.to_nat size) (map VInt l).
Proof.
  intros size sg l Hs. induction l as [|z l IH]; auto. cbn [map encode_items pack_all]. rewrite IH. cbn [encode]. unfold int_encode. rewrite int_fmt_ok by auto. auto.
Qed.
Lemma pack_zeros : forall size sg k, int_size size -> pack_all sg (Z.to_nat size) (map VInt (repeat 0 k)) = Ok (zeros (Z.of_nat k * size)).
Proof.
  intros size sg k Hs. induction k as [|k IH]; auto. cbn [repeat map pack_all]. rewrite IH.
  replace (pack_int sg (Z.to_nat size) 0) with (@Ok (list Z) (repeat 0 (Z.to_nat size))) by (destruct sg, Hs as [->|[->|[->| ->]]]; reflexivity).
  cbn [bind]. unfold zeros. rewrite <- repeat_app. do 2 f_equal. unfold int_size in Hs. lia.
Qed.
Lemma pack_all_app : forall sg n a b, pack_all sg n (a ++ b) = (do x <- pack_all sg n a ;; do y <- pack_all sg n b ;; Ok (x ++ y)).
Proof.
  intros sg n a b. induction a as [|v a IH]; cbn [app pack_all bind].
  - destruct (pack_all sg n b); auto.
  - destruct v; auto; destruct (pack_int sg n _); cbn [bind]; auto; rewrite IH; destruct (pack_all sg n a); cbn [bind]; auto;
      destruct (pack_all sg n b); cbn [bind]; auto; rewrite app_assoc; auto.
Qed.

(** Fixed arrays of integers come back with one zero too many, even when all elements were given:
    the padding counts from the index of the last element instead of the number of elements. *)
Theorem C41_fixed_int_array_partial : forall size sg count l, int_size size -> Forall (int_range size sg) l -> l <> [] -> zlen l <= count ->
  exists d, enc (TFixed (TInt size sg) count) (VSeq (map VInt l)) = Ok d /\ zlen d = size * (count + 1) /\
    dec (TFixed (TInt size sg) count) d = Ok (VSeq (map VInt (l ++ repeat 0 (Z.to_nat (count - zlen l + 1))))).
Proof.
  intros size sg count l Hs Hl Hne Hc. set (k := Z.to_nat (count - zlen l + 1)). set (l' := l ++ repeat 0 k).
  assert (Hl' : Forall (int_range size sg) l').
  { apply Forall_app. split; auto. apply Forall_forall. intros x X. apply repeat_spec in X. subst. unfold int_range. destruct sg, Hs as [->|[->|[->| ->]]]; cbn; lia. }
  destruct (ints_roundtrip size sg l' Hs Hl') as (d & E & B & D). destruct (pack_all_ok size sg l' Hs Hl') as (d' & E' & _ & L & _). assert (d' = d) by congruence. subst d'.
  exists d. split; [|split].
  - cbn [encode byte_size bind]. change (fun v : val => int_encode size sg v) with (enc (TInt size sg)). rewrite encode_fixed_items by (unfold zlen in *; rewrite map_length; auto).
    rewrite encode_items_ints by auto. unfold l' in E. rewrite map_app, pack_all_app, pack_zeros in E by auto. destruct (pack_all sg (Z.to_nat size) (map VInt l)) as [e|]; [|discriminate].
    cbn [bind] in E. injection E as <-. cbn [bind]. destruct l as [|z l]; [congruence|]. cbn [map]. change (VInt z :: map VInt l) with (map VInt (z :: l)).
    replace (zlen (map VInt (z :: l))) with (zlen (z :: l)) by (unfold zlen; rewrite map_length; auto).
    replace (zlen (z :: l) - 1 <? count) with true by lia. do 3 f_equal. unfold k. lia.
  - rewrite L. unfold l'. rewrite zlen_app. unfold k. unfold zlen at 2. rewrite repeat_length. unfold zlen. pose proof (zlen_nonneg _ l). unfold zlen in *. nia.
  - cbn [decode]. rewrite D. auto.
Qed.

Theorem C41_fixed_array_refuted : exists count l, zlen l = count /\ Forall (int_range 1 false) l /\
  forall d, enc (TFixed (TInt 1 false) count) (VSeq (map VInt l)) = Ok d -> dec (TFixed (TInt 1 false) count) d <> Ok (VSeq (map VInt l)).
Proof.
  exists 2, [7; 8]. split; auto. split; [repeat constructor; cbn; lia|]. intros d E. cbn in E. injection E as <-. cbn. discriminate.
Qed.

(** Other elements are read back: exactly when all [count] were given. *)
Theorem C41_fixed_array_full_partial : forall el n count l, plain_el el -> byte_size el = Ok n -> 0 < n -> Forall (okval lower el) l -> l <> [] -> zlen l = count ->
  exists d, enc (TFixed el count) (VSeq l) = Ok d /\ dec (TFixed el count) d = Ok (VSeq l).
Proof.
  intros el n count l Hp Hn Pn Hl Hne Hc. assert (HR : Forall (fun v => round lower set_iter el v) l).
  { eapply Forall_impl; [|apply Hl]. intros v Hv. apply value_roundtrip. auto. }
  destruct (items_round lower set_iter el n Hn Pn l HR) as (e & E & _ & L & D). exists (e ++ zeros n). split.
  - cbn [encode]. rewrite Hn. cbn [bind]. rewrite encode_fixed_items by lia. rewrite E. cbn [bind]. destruct l as [|v l]; [congruence|].
    replace (zlen (v :: l) - 1 <? count) with true by lia. do 3 f_equal. lia.
  - rewrite dec_fixed by (intros s g ->; destruct Hp). rewrite Hn. cbn [bind]. rewrite <- Hc. unfold zlen. rewrite Nat2Z.id. specialize (D [] (zeros n)). cbn [app] in D.
    change (zlen (@nil Z)) with 0 in D. rewrite D. auto.
Qed.

(** A fixed array that holds the images of [count] elements reads as those elements, and its size
    is the one that byte_size computes. *)
Theorem C41_fixed_read_partial : forall el n count l, (forall s g, el = TInt s g -> int_size s) -> byte_size el = Ok n -> 0 < n -> Forall (okval lower el) l -> zlen l = count ->
  exists d, encode_items (enc el) l = Ok d /\ dec (TFixed el count) d = Ok (VSeq l) /\ byte_size (TFixed el count) = Ok (zlen d).
Proof.
  intros el n count l Hp Hn Pn Hl Hc. assert (HR : Forall (fun v => round lower set_iter el v) l).
  { eapply Forall_impl; [|apply Hl]. intros v Hv. apply value_roundtrip. auto. }
  destruct (items_round lower set_iter el n Hn Pn l HR) as (e & E & _ & L & D). exists e. split; auto. split; [|cbn [byte_size]; rewrite Hn; cbn [bind]; f_equal; lia].
  assert (Hd : (exists s g, el = TInt s g) \/ forall s g, el <> TInt s g) by (destruct el; try (right; discriminate); left; eauto).
  destruct Hd as [(s & g & ->)|Hd].
  - specialize (Hp s g eq_refl). cbn [byte_size] in Hn. injection Hn as ->.
    assert (X : exists zs, l = map VInt zs /\ Forall (int_range n g) zs).
    { clear - Hl. induction Hl as [|v l Hv _ (zs & -> & F)]; [exists []; auto|]. cbn [okval] in Hv. destruct Hv as (_ & z & -> & R). exists (z :: zs). auto. }
    destruct X as (zs & -> & F). destruct (ints_roundtrip n g zs Hp F) as (d & Ed & _ & Dd). rewrite encode_items_ints, Ed in E by auto. injection E as <-.
    cbn [decode]. rewrite Dd. reflexivity.
  - rewrite dec_fixed by auto. rewrite Hn. cbn [bind]. rewrite <- Hc. unfold zlen. rewrite Nat2Z.id. specialize (D [] []). cbn [app] in D.
    change (zlen (@nil Z)) with 0 in D. rewrite app_nil_r in D. rewrite D. auto.
Qed.

(** Too many elements are refused; no element at all is a NameError (the loop variable is unset). *)
Theorem C41_fixed_too_many_partial : forall el n count l, byte_size el = Ok n -> Forall (okval lower el) l -> 0 <= count < zlen l ->
  enc (TFixed el count) (VSeq l) = Err PropertyError.
Proof.
  intros el n count l Hn Hl Hc. cbn [encode]. rewrite Hn. cbn [bind]. rewrite encode_fixed_many; auto.
  eapply Forall_impl; [|apply Hl]. intros v Hv. destruct (value_roundtrip lower set_iter el v Hv) as (d & E & _). eauto.
Qed.
Theorem C41_fixed_empty_partial : forall el n count, byte_size el = Ok n -> enc (TFixed el count) (VSeq []) = Err NameError.
Proof. intros el n count Hn. cbn [encode]. rewrite Hn. auto. Qed.

(** aafUUIDArray (model/typedefs.py:355) is an array of 16 byte fixed arrays: two identifiers in,
    two different ones out. *)
Definition uuid_array : typ := TVar (TFixed (TInt 1 false) 16).
Theorem C41_uuid_array_refuted : exists l, forall d v, enc uuid_array (VSeq l) = Ok d -> dec uuid_array d = Ok v -> v <> VSeq l.
Proof.
  exists [VSeq (map VInt (zseq 1 16)); VSeq (map VInt (zseq 1 16))]. intros d v E D. vm_compute in E. injection E as <-. vm_compute in D. injection D as <-. discriminate.
Qed.

(** ** C42 *)

Theorem C42_string_roundtrip_partial : forall s, text s -> nul_free s -> exists d, enc TString (VStr s) = Ok d /\ dec TString d = Ok (VStr s).
Proof. intros s Ht Hn. destruct (string_roundtrip s (conj Ht Hn)) as (d & E & _ & D). exists d. cbn. rewrite D. auto. Qed.

(** A NUL ends the string; surrogates are refused. *)
Theorem C42_string_nul_partial : forall a b, text (a ++ 0 :: b) -> nul_free a -> exists d, enc TString (VStr (a ++ 0 :: b)) = Ok d /\ dec TString d = Ok (VStr a).
Proof.
  intros a b Ht Hn. exists (enc16 (a ++ 0 :: b) ++ [0; 0]). cbn [encode decode]. unfold encode_utf16le. rewrite encode_utf16_text by auto. split; auto. do 2 f_equal.
  apply Forall_app in Ht. destruct Ht as [Ha _]. unfold enc16. rewrite flat_map_app. fold (enc16 a). rewrite <- app_assoc. apply decode_utf16_padded; auto. right.
  eexists. reflexivity.
Qed.
Theorem C42_string_refused_partial : forall s, enc TString (VStr s) = Err UnicodeError <-> ~ text s.
Proof.
  intros s. cbn. unfold encode_utf16le. split.
  - intros E Ht. rewrite encode_utf16_text in E by auto. discriminate.
  - intros H. destruct (encode_utf16 s) as [d|e] eqn:E.
    + apply encode_utf16_Ok in E. tauto.
    + unfold encode_utf16 in E. destruct (forallb _ s); [discriminate|]. injection E as <-. auto.
Qed.

Theorem C42_string_array_roundtrip_partial : forall l, Forall (fun s => text s /\ nul_free s) l ->
  exists d, enc (TVar (TChar true)) (VSeq (map VStr l)) = Ok d /\ dec (TVar (TChar true)) d = Ok (VSeq (map VStr l)).
Proof. intros l H. destruct (C44_value_roundtrip_partial (TVar (TChar true)) (VSeq (map VStr l))) as (d & E & D & _); [|eauto]. split; auto. exists l. auto. Qed.

(** The built-in character type is named "aafCharacter" (model/typedefs.py:459) but encode asks for
    "Character": arrays of strings cannot be written with the built-in types, though they can be read. *)
Theorem C42_string_array_refuted : forall l, l <> [] ->
  enc (TVar (TChar false)) (VSeq (map VStr l)) = Err GenericError /\
  forall d, enc (TVar (TChar true)) (VSeq (map VStr l)) = Ok d -> dec (TVar (TChar false)) d = dec (TVar (TChar true)) d.
Proof. intros l Hne. split; auto. destruct l; [congruence|]. reflexivity. Qed.

(** ** C43 *)

(** An enumeration built from a table (distinct values, NUL-free names) maps names and values to each other. *)
Theorem C43_enum_names : forall el size sg, enum_table el -> NoDup (map snd el) -> int_size size -> Forall (fun x => int_range size sg (fst x)) el ->
  exists ns vs, enum_new el = Ok (ns, vs) /\ let t := TEnum false (TInt size sg) ns vs in
    (forall z s, In (z, s) el -> exists d, enc t (VStr s) = Ok d /\ enc t (VInt z) = Ok d /\ enc (TInt size sg) (VInt z) = Ok d /\ dec t d = Ok (VStr s)) /\
    (forall v, (forall z s, In (z, s) el -> v <> VStr s /\ v <> VInt z /\ (forall b, v = VBool b -> z <> if b then 1 else 0)) -> enc t v = Err PropertyError) /\
    (forall z d, enc (TInt size sg) (VInt z) = Ok d -> ~ In z (map fst el) -> dec t d = Err KeyError).
Proof.
  intros el size sg Ht N Hs F. destruct (enum_new_elements el Ht) as (ns & vs & E1 & E2). exists ns, vs. split; auto. cbn zeta. split; [|split].
  - intros z s I. rewrite Forall_forall in F. pose proof (F _ I) as Hz. cbn in Hz.
    destruct (C44_value_roundtrip_partial (TEnum false (TInt size sg) ns vs) (VStr s)) as (d & E & D & _).
    { cbn [okval]. exists el, z, s. repeat split; auto. exists z. auto. }
    exists d. split; auto. cbn [encode] in *. rewrite E2 in *. cbn [bind] in *. rewrite (find_name el z s N I) in E. rewrite (find_value el z s (proj1 Ht) I). auto.
  - intros v Hv. cbn [encode]. rewrite E2. cbn [bind]. rewrite find_unknown by auto. auto.
  - intros z d E Hz. cbn [decode]. assert (Hr : int_range size sg z).
    { destruct (C40_int_refused size sg z Hs) as [_ X]. destruct sg; unfold int_range in *.
      - destruct (Z_le_dec (- 2 ^ (8 * size - 1)) z); [destruct (Z_lt_dec z (2 ^ (8 * size - 1))); [lia|]|]; rewrite X in E by lia; discriminate.
      - destruct (Z_le_dec 0 z); [destruct (Z_lt_dec z (2 ^ (8 * size))); [lia|]|]; rewrite X in E by lia; discriminate. }
    destruct (C40_int_roundtrip size sg z Hs Hr) as (d' & E' & D' & _). assert (d' = d) by congruence. subst. cbn [decode] in D'. rewrite D'. cbn [bind]. rewrite E2. cbn [bind].
    rewrite (dict_get_none Z.eqb Z.eqb_eq); auto.
Qed.

(** Registering adds the element unless its name or value is taken, and keeps all others. *)
Theorem C43_register_keeps : forall ns vs el name value, enum_elements ns vs = Ok el -> enum_table el -> good_name name -> - 2 ^ 63 <= value < 2 ^ 63 ->
  exists ns' vs' el', register_element ns vs name value = Ok (ns', vs') /\ enum_elements ns' vs' = Ok el' /\ enum_table el' /\
    (forall x, In x el' <-> In x el \/ (x = (value, name) /\ ~ In value (map fst el) /\ ~ In name (map snd el))).
Proof. exact register_ok. Qed.

Theorem C43_boolean : forall el ns vs v, enc (TEnum true el ns vs) v = Ok (if truthy v then [1] else [0]) /\
  dec (TEnum true el ns vs) (if truthy v then [1] else [0]) = Ok (VBool (truthy v)).
Proof. intros. cbn [encode decode]. destruct (truthy v); auto. Qed.

Lemma auid_array_roundtrip : forall l, Forall (fun a => List.length a = 16%nat) l -> iter_auid_array (encode_auid_array l) = Ok l.
Proof.
  intros l H. unfold iter_auid_array. assert (G : forall fuel, (List.length (encode_auid_array l) <= fuel)%nat -> iter_auid fuel (encode_auid_array l) = Ok l); [|apply G; lia].
  induction H as [|a l Ha _ IH]; intros fuel Hf.
  - destruct fuel; reflexivity.
  - change (encode_auid_array (a :: l)) with (a ++ encode_auid_array l) in *. rewrite app_length, Ha in Hf. destruct fuel as [|fuel]; [lia|].
    cbn [iter_auid]. destruct (a ++ encode_auid_array l) eqn:E; [destruct a; cbn in *; [lia|discriminate]|]. rewrite <- E.
    assert (Za : zlen a = 16) by (unfold zlen; lia). rewrite zlen_app. pose proof (zlen_nonneg _ (encode_auid_array l)). replace (16 <=? zlen a + zlen (encode_auid_array l)) with true by lia.
    rewrite <- Za. rewrite zdrop_app_exact, ztake_app_exact. rewrite IH by lia. auto.
Qed.
Definition ext_table (el : list (list Z * list Z)) : Prop := NoDup (map fst el) /\ Forall (fun x => good_name (snd x) /\ bytes (fst x) /\ List.length (fst x) = 16%nat) el.
Lemma ext_tables : forall el, ext_table el -> exists ns vs, ext_new el = Ok (ns, vs) /\ ext_elements ns vs = Ok el.
Proof.
  intros el [N F]. destruct (names_roundtrip (map snd el)) as (ns & E1 & _ & D1). { rewrite Forall_map. eapply Forall_impl; [|apply F]. cbn. tauto. }
  exists ns, (encode_auid_array (map fst el)). unfold ext_new, ext_elements. rewrite E1, D1. cbn [bind]. split; auto. rewrite auid_array_roundtrip.
  - cbn [bind]. rewrite dict_zip_map; auto. apply zlist_eqb_eq.
  - rewrite Forall_map. eapply Forall_impl; [|apply F]. cbn. tauto.
Qed.

(** Extendible enumerations: names up to case, values are AUIDs; an unknown AUID reads as itself. *)
Theorem C43_extenum_names : forall el, ext_table el -> NoDup (map (fun x => lower (snd x)) el) ->
  exists ns vs, ext_new el = Ok (ns, vs) /\ let t := TExtEnum ns vs in
    (forall a s, In (a, s) el -> enc t (VStr s) = Ok a /\ enc t (VAuid a) = Ok a /\ dec t a = Ok (VStr s)) /\
    (forall s, ~ In (lower s) (map (fun x => lower (snd x)) el) -> enc t (VStr s) = Err ValueError) /\
    (forall a, ~ In a (map fst el) -> enc t (VAuid a) = Err ValueError /\ (a <> [] -> dec t a = Ok (VAuid a))).
Proof.
  intros el Ht N. destruct (ext_tables el Ht) as (ns & vs & E1 & E2). exists ns, vs. split; auto. cbn zeta. split; [|split].
  - intros a s I. destruct Ht as [Nk F]. rewrite Forall_forall in F. destruct (F _ I) as (_ & Hb & Hl). cbn in Hb, Hl.
    destruct (C44_value_roundtrip_partial (TExtEnum ns vs) (VStr s)) as (d & E & D & _). { cbn [okval]. exists el, a, s. auto 7. }
    cbn [encode decode] in *. rewrite E2 in *. cbn [bind] in *. rewrite (ext_find lower el a s N I) in *. cbn [fst] in *. injection E as <-. split; auto. split; auto.
    replace (find (fun x => zlist_eqb (fst x) a) el) with (Some (a, s)); auto. clear - Nk I. symmetry. induction el as [|[a' s'] el IH]; [destruct I|].
    cbn [find fst]. cbn in Nk. inversion Nk; subst. destruct I as [I|I].
    + injection I as -> ->. rewrite (proj2 (zlist_eqb_eq a a)) by auto. auto.
    + destruct (zlist_eqb a' a) eqn:E; [|auto]. apply zlist_eqb_eq in E. subst. exfalso. apply H1. apply in_map_iff. exists (a, s). auto.
  - intros s Hs. cbn [encode]. rewrite E2. cbn [bind]. destruct (find _ el) as [[a' s']|] eqn:E; auto. apply find_some in E. destruct E as [I E]. cbn in E. apply zlist_eqb_eq in E.
    exfalso. apply Hs. rewrite <- E. apply in_map_iff. exists (a', s'). auto.
  - intros a Ha. split.
    + cbn [encode]. rewrite E2. cbn [bind]. destruct (find _ el) as [[a' s']|] eqn:E; auto. apply find_some in E. destruct E as [I E]. cbn in E. apply zlist_eqb_eq in E. subst.
      exfalso. apply Ha. apply in_map_iff. exists (a, s'). auto.
    + intros Hne. cbn [decode]. rewrite E2. cbn [bind]. replace (zlen a =? 0) with false by (destruct a; [congruence|rewrite zlen_cons; pose proof (zlen_nonneg _ a); lia]).
      cbn [negb]. rewrite (dict_get_none zlist_eqb zlist_eqb_eq); auto.
Qed.

Theorem C43_ext_register_keeps : forall ns vs el name a, ext_elements ns vs = Ok el -> ext_table el -> good_name name -> bytes a -> List.length a = 16%nat ->
  exists ns' vs' el', ext_register ns vs name a = Ok (ns', vs') /\ ext_elements ns' vs' = Ok el' /\ ext_table el' /\
    (forall x, In x el' <-> In x el \/ (x = (a, name) /\ ~ In a (map fst el) /\ ~ In name (map snd el))).
Proof.
  intros ns vs el name a H Ht Hn Hb Hl. pose proof Ht as [N F]. unfold ext_register. rewrite H. cbn [bind]. destruct (existsb _ el) eqn:E.
  - exists ns, vs, el. split; [auto|]. split; [auto|]. split; [auto|]. intros x; split; auto. intros [X|(-> & X1 & X2)]; auto. exfalso. apply existsb_exists in E.
    destruct E as ([z s] & I & E). cbn in E. apply orb_true_iff in E. destruct E as [E|E]; apply zlist_eqb_eq in E; subst.
    + apply X1. apply in_map_iff. exists (a, s). auto.
    + apply X2. apply in_map_iff. exists (z, name). auto.
  - assert (X1 : ~ In a (map fst el)).
    { intros X. apply in_map_iff in X. destruct X as ([z s] & Ez & I). cbn in Ez. subst. rewrite <- Bool.not_true_iff_false in E. apply E. apply existsb_exists.
      exists (a, s). split; auto. cbn. rewrite (proj2 (zlist_eqb_eq a a)) by auto. auto. }
    assert (X2 : ~ In name (map snd el)).
    { intros X. apply in_map_iff in X. destruct X as ([z s] & Ez & I). cbn in Ez. subst. rewrite <- Bool.not_true_iff_false in E. apply E. apply existsb_exists.
      exists (z, name). split; auto. cbn. rewrite (proj2 (zlist_eqb_eq name name)) by auto. apply orb_true_r. }
    assert (T' : ext_table (el ++ [(a, name)])).
    { split; [rewrite map_app; apply NoDup_snoc; auto|]. apply Forall_app. split; auto. }
    destruct (ext_tables _ T') as (ns' & vs' & E1 & E2). exists ns', vs', (el ++ [(a, name)]). split; [auto|]. split; [auto|]. split; [auto|]. intros x. rewrite in_app_iff. cbn [In]. intuition.
Qed.

(** ** C44: the record types of model/typedefs.py:287-345 *)
Definition u8 := TInt 1 false. Definition u16 := TInt 2 false. Definition u32 := TInt 4 false.
Definition i8 := TInt 1 true. Definition i16 := TInt 2 true. Definition i32 := TInt 4 true.
Definition auid_t : typ := TRec RAuid [(codes "Data1", u32); (codes "Data2", u16); (codes "Data3", u16); (codes "Data4", TFixed u8 8)].
Definition mobid_t : typ := TRec RMob [(codes "SMPTELabel", TFixed u8 12); (codes "length", u8); (codes "instanceHigh", u8); (codes "instanceMid", u8); (codes "instanceLow", u8); (codes "material", auid_t)].
Definition rational_t : typ := TRec RRat [(codes "Numerator", i32); (codes "Denominator", i32)].
Definition version_t : typ := TRec RPlain [(codes "major", i8); (codes "minor", i8)].
Definition date_t : typ := TRec RDate [(codes "year", i16); (codes "month", u8); (codes "day", u8)].
Definition time_t : typ := TRec RTime [(codes "hour", u8); (codes "minute", u8); (codes "second", u8); (codes "fraction", u8)].
Definition stamp_t : typ := TRec RStamp [(codes "date", date_t); (codes "time", time_t)].

Ltac distinct := cbn; repeat constructor; cbn; intuition discriminate.
Ltac field := split; [reflexivity|]; split; [eexists; reflexivity|]; split; [split; [unfold int_size; lia|]; eexists; split; [reflexivity|]; unfold int_range; cbn; lia|].

Lemma date_fields : forall y m d, date_ok y m d = true -> 1 <= y <= 9999 /\ 1 <= m <= 12 /\ 1 <= d <= 31.
Proof. intros y m d H. unfold date_ok, month_days in H. destruct (m =? 2), (leap y), ((m =? 4) || (m =? 6) || (m =? 9) || (m =? 11)); lia. Qed.

Lemma okdate : forall y m d, date_ok y m d = true -> okval lower date_t (VDate y m d).
Proof.
  intros y m d H. pose proof (date_fields y m d H). cbn [okval date_t]. exists y, m, d. split; auto. split; auto. split; [distinct|]. field. field. field. auto.
Qed.
Lemma oktime : forall h mi s, time_ok h mi s 0 = true -> okval lower time_t (VTime h mi s 0).
Proof.
  intros h mi s H. assert (0 <= h < 24 /\ 0 <= mi < 60 /\ 0 <= s < 60) by (unfold time_ok in H; lia). cbn [okval time_t]. exists h, mi, s. split; auto. split; auto.
  split; [distinct|]. field. field. field. field. auto.
Qed.

(** The Gregorian calendar for the years 1 to 9999, and the time of day. *)
Definition leap_year (y : Z) : Prop := (4 | y) /\ (~ (100 | y) \/ (400 | y)).
Definition month_length (y m n : Z) : Prop :=
  (In m [1; 3; 5; 7; 8; 10; 12] /\ n = 31) \/ (In m [4; 6; 9; 11] /\ n = 30) \/ (m = 2 /\ ((leap_year y /\ n = 29) \/ (~ leap_year y /\ n = 28))).
Definition a_date (y m d : Z) : Prop := 1 <= y <= 9999 /\ exists n, month_length y m n /\ 1 <= d <= n.
Definition a_time (h mi s us : Z) : Prop := 0 <= h <= 23 /\ 0 <= mi <= 59 /\ 0 <= s <= 59 /\ 0 <= us <= 999999.

Lemma dvd : forall n y, 0 < n -> ((n | y) <-> y mod n = 0).
Proof. intros n y H. split; [intros; apply Z.mod_divide; auto; lia|intros; apply Z.mod_divide; auto; lia]. Qed.
Lemma leap_spec : forall y, leap y = true <-> leap_year y.
Proof.
  intros y. unfold leap, leap_year. rewrite !dvd by lia.
  assert (H : y mod 400 = 0 -> y mod 4 = 0). { intros H. apply Z.mod_divide in H; [|lia]. apply Z.mod_divide; [lia|]. eapply Z.divide_trans; [|apply H]. exists 100. reflexivity. }
  destruct (y mod 4 =? 0) eqn:A, (y mod 100 =? 0) eqn:B, (y mod 400 =? 0) eqn:C; cbn; lia.
Qed.
Lemma date_spec : forall y m d, date_ok y m d = true <-> a_date y m d.
Proof.
  intros y m d. unfold a_date, date_ok, month_length. split.
  - intros H. split; [lia|]. exists (month_days y m). split; [|lia]. unfold month_days. destruct (m =? 2) eqn:E2.
    + right. right. split; [lia|]. destruct (leap y) eqn:L; [left|right]; (split; [|reflexivity]); rewrite <- leap_spec; [auto|congruence].
    + destruct ((m =? 4) || (m =? 6) || (m =? 9) || (m =? 11)) eqn:E; [right; left|left]; (split; [|reflexivity]); cbn [In]; lia.
  - intros (Y & n & M & D). assert (month_days y m = n /\ 1 <= m <= 12).
    { unfold month_days. destruct M as [[I ->]|[[I ->]|[-> [[L ->]|[L ->]]]]].
      - cbn [In] in I. split; [|lia]. replace (m =? 2) with false by lia. replace ((m =? 4) || (m =? 6) || (m =? 9) || (m =? 11)) with false by lia. reflexivity.
      - cbn [In] in I. split; [|lia]. replace (m =? 2) with false by lia. replace ((m =? 4) || (m =? 6) || (m =? 9) || (m =? 11)) with true by lia. reflexivity.
      - apply leap_spec in L. rewrite L. split; [reflexivity|lia].
      - rewrite <- leap_spec in L. destruct (leap y); [congruence|]. split; [reflexivity|lia]. }
    lia.
Qed.
Lemma time_spec : forall h mi s us, time_ok h mi s us = true <-> a_time h mi s us.
Proof. intros. unfold time_ok, a_time. lia. Qed.

Theorem C44_special_records_partial :
  (forall y m d, a_date y m d -> exists b, enc date_t (VDate y m d) = Ok b /\ dec date_t b = Ok (VDate y m d)) /\
  (forall h mi s, a_time h mi s 0 -> exists b, enc time_t (VTime h mi s 0) = Ok b /\ dec time_t b = Ok (VTime h mi s 0)) /\
  (forall y m d h mi s, a_date y m d -> a_time h mi s 0 ->
     exists b, enc stamp_t (VDateTime y m d h mi s 0) = Ok b /\ dec stamp_t b = Ok (VDateTime y m d h mi s 0)) /\
  (forall n d, - 2 ^ 31 <= n < 2 ^ 31 -> - 2 ^ 31 <= d < 2 ^ 31 -> d <> 0 -> exists b, enc rational_t (VRat n d) = Ok b /\ dec rational_t b = Ok (VRat n d)) /\
  (forall a, bytes a -> List.length a = 16%nat -> enc auid_t (VAuid a) = Ok a /\ dec auid_t a = Ok (VAuid a)) /\
  (forall m, bytes m -> List.length m = 32%nat -> enc mobid_t (VMob m) = Ok m /\ dec mobid_t m = Ok (VMob m)).
Proof.
  split; [|split; [|split; [|split; [|split]]]].
  - intros y m d H. apply date_spec in H. destruct (C44_value_roundtrip_partial date_t (VDate y m d) (okdate y m d H)) as (b & E & D & _). eauto.
  - intros h mi s H. apply time_spec in H. destruct (C44_value_roundtrip_partial time_t (VTime h mi s 0) (oktime h mi s H)) as (b & E & D & _). eauto.
  - intros y m d h mi s H1 H2. apply date_spec in H1. apply time_spec in H2. destruct (C44_value_roundtrip_partial stamp_t (VDateTime y m d h mi s 0)) as (b & E & D & _); [|eauto].
    cbn [okval stamp_t]. exists y, m, d, h, mi, s. split; auto. split; [distinct|]. split; auto. split; [eexists; reflexivity|]. split; [apply okdate; auto|].
    split; auto. split; [eexists; reflexivity|]. split; [apply oktime; auto|]. auto.
  - intros n d Hn Hd Hz. destruct (C44_value_roundtrip_partial rational_t (VRat n d)) as (b & E & D & _); [|eauto].
    cbn [okval rational_t]. exists n, d. split; auto. split; auto. split; [distinct|]. field. field. auto.
  - intros a B L. split; auto. cbn [decode auid_t]. unfold zlen. rewrite L. auto.
  - intros m B L. split; auto. cbn [decode mobid_t]. unfold zlen. rewrite L. auto.
Qed.

Lemma pack_u1 : forall v, 0 <= v < 256 -> pack_u 1 v = Ok [v].
Proof.
  intros v H. unfold pack_u. change (256 ^ Z.of_nat 1) with 256. replace ((0 <=? v) && (v <? 256)) with true by lia.
  unfold le_bytes. rewrite Z.mod_small by lia. reflexivity.
Qed.
Lemma pack_s2 : forall v, - 2 ^ 15 <= v < 2 ^ 15 -> pack_s 2 v = Ok (le_bytes 2 (v mod 65536)).
Proof. intros v H. unfold pack_s. change (256 ^ Z.of_nat 2) with 65536. replace ((- (65536 / 2) <=? v) && (v <? 65536 / 2)) with true by lia. reflexivity. Qed.

(** What is no date or no time of day stays a dictionary of its fields when it is read. *)
Theorem C44_no_date_partial :
  (forall y m d b, - 2 ^ 15 <= y < 2 ^ 15 -> 0 <= m < 256 -> 0 <= d < 256 -> ~ a_date y m d ->
     b = le_bytes 2 (y mod 65536) ++ [m; d] -> dec date_t b = Ok (VDict [(codes "year", VInt y); (codes "month", VInt m); (codes "day", VInt d)])) /\
  (forall h mi s us b, 0 <= h < 256 -> 0 <= mi < 256 -> 0 <= s < 256 -> 0 <= us < 256 -> ~ a_time h mi s us ->
     b = [h; mi; s; us] -> dec time_t b = Ok (VDict [(codes "hour", VInt h); (codes "minute", VInt mi); (codes "second", VInt s); (codes "fraction", VInt us)])).
Proof.
  split.
  - intros y m d b Hy Hm Hd N ->.
    assert (HF : Forall (fun f => forall v, okval lower (snd f) v -> round lower set_iter (snd f) v) [(codes "year", i16); (codes "month", u8); (codes "day", u8)]).
    { repeat constructor; intros v; apply value_roundtrip. }
    destruct (fields_round0 lower set_iter _ [(codes "year", VInt y); (codes "month", VInt m); (codes "day", VInt d)] HF) as (e & Ee & _ & _ & D).
    { field. field. field. exact I. } { distinct. }
    assert (e = le_bytes 2 (y mod 65536) ++ [m; d]).
    { lazy beta iota zeta delta -[pack_s pack_u] in Ee. rewrite pack_s2, !pack_u1 in Ee by lia. cbn [app] in Ee. injection Ee as <-. reflexivity. }
    subst e. unfold date_t. rewrite dec_rec by congruence. rewrite D. cbn [bind]. unfold record_value, dget. cbn [dict_get].
    assert (F : date_ok y m d = false) by (destruct (date_ok y m d) eqn:E; auto; apply date_spec in E; tauto).
    lazy beta iota zeta delta -[date_ok]. rewrite F. reflexivity.
  - intros h mi s us b H1 H2 H3 H4 N ->.
    assert (HF : Forall (fun f => forall v, okval lower (snd f) v -> round lower set_iter (snd f) v) [(codes "hour", u8); (codes "minute", u8); (codes "second", u8); (codes "fraction", u8)]).
    { repeat constructor; intros v; apply value_roundtrip. }
    destruct (fields_round0 lower set_iter _ [(codes "hour", VInt h); (codes "minute", VInt mi); (codes "second", VInt s); (codes "fraction", VInt us)] HF) as (e & Ee & _ & _ & D).
    { field. field. field. field. exact I. } { distinct. }
    assert (e = [h; mi; s; us]).
    { lazy beta iota zeta delta -[pack_s pack_u] in Ee. rewrite !pack_u1 in Ee by lia. cbn [app] in Ee. injection Ee as <-. reflexivity. }
    subst e. unfold time_t. rewrite dec_rec by congruence. rewrite D. cbn [bind].
    assert (F : time_ok h mi s us = false) by (destruct (time_ok h mi s us) eqn:E; auto; apply time_spec in E; tauto).
    lazy beta iota zeta delta -[time_ok]. rewrite F. reflexivity.
Qed.

(** A plain record keeps its fields: any types, any number of fields. *)
Theorem C44_plain_record_partial : forall fs d, NoDup (map fst d) -> fields_ok lower fs d ->
  exists b, enc (TRec RPlain fs) (VDict d) = Ok b /\ dec (TRec RPlain fs) b = Ok (VDict d).
Proof. intros fs d N H. destruct (C44_value_roundtrip_partial (TRec RPlain fs) (VDict d)) as (b & E & Dd & _); [|eauto]. exists d. auto. Qed.

(** Fractions of a second are not stored. *)
Theorem C44_time_fraction_refuted : exists h mi s us, time_ok h mi s us = true /\
  forall b, enc time_t (VTime h mi s us) = Ok b -> dec time_t b = Ok (VTime h mi s 0) /\ us <> 0.
Proof. exists 1, 2, 3, 4. split; auto. intros b E. vm_compute in E. injection E as <-. split; [vm_compute; reflexivity|lia]. Qed.

(** ** C45 *)

(** Built from two rationals (integers have denominator 1): unreduced, and equal to the quotient. *)
Theorem C45_rational_unreduced : forall n d, d <> 0 -> rat_new (n, 1) (d, 1) = Ok (n, d).
Proof. intros n d H. unfold rat_new. cbn [fst snd]. rewrite !Z.mul_1_r. replace (d =? 0) with false by lia. auto. Qed.
Theorem C45_rational_quotient : forall n1 n2 d1 d2, n2 <> 0 -> d1 <> 0 -> d2 <> 0 -> exists a b, rat_new (n1, n2) (d1, d2) = Ok (a, b) /\
  b <> 0 /\ a * (d1 * n2) = (n1 * d2) * b.
Proof.
  intros n1 n2 d1 d2 H1 H2 H3. unfold rat_new. cbn [fst snd]. assert (d1 * n2 <> 0) by (apply Z.neq_mul_0; auto). replace (d1 * n2 =? 0) with false by lia.
  eexists _, _. split; [reflexivity|]. split; auto; ring.
Qed.
Theorem C45_rational_zero : forall n, n <> 0 -> rat_new (0, 1) (0, 1) = Ok (0, 1) /\ rat_new (n, 1) (0, 1) = Err ZeroDivision.
Proof. intros n H. split; [reflexivity|]. unfold rat_new. cbn [fst snd]. rewrite !Z.mul_1_r. replace (n =? 0) with false by lia. reflexivity. Qed.

(** In storage: every pair of 32 bit numbers reads back as itself, 0/0 as 0/1, n/0 is refused. *)
Theorem C45_rational_stored : forall n d, - 2 ^ 31 <= n < 2 ^ 31 -> - 2 ^ 31 <= d < 2 ^ 31 -> exists b, enc rational_t (VRat n d) = Ok b /\
  dec rational_t b = if d =? 0 then (if n =? 0 then Ok (VRat 0 1) else Err ZeroDivision) else Ok (VRat n d).
Proof.
  intros n d Hn Hd.
  assert (HF : Forall (fun f => forall v, okval lower (snd f) v -> round lower set_iter (snd f) v) [(codes "Numerator", i32); (codes "Denominator", i32)]).
  { repeat constructor; intros v; apply value_roundtrip. }
  destruct (fields_round0 lower set_iter _ [(codes "Numerator", VInt n); (codes "Denominator", VInt d)] HF) as (e & Ee & _ & _ & D).
  { field. field. exact I. } { distinct. }
  exists e. split. { unfold rational_t. rewrite enc_rec by congruence. cbn [record_source rat_of bind fst snd]. exact Ee. }
  unfold rational_t. rewrite dec_rec by congruence. rewrite D. cbn [bind]. etransitivity; [apply rat_value|]. unfold rat_new. cbn [fst snd]. rewrite !Z.mul_1_r.
  destruct (d =? 0); [destruct (n =? 0)|]; auto.
Qed.

(** ** C58: indirect values carry their type *)
Theorem C58_indirect_roundtrip : forall lookup given v a t, indirect_auid lookup given v = Ok a -> lookup a = Some t ->
  List.length a = 16%nat -> okval lower t v ->
  exists d, indirect_encode lower set_iter lookup given v = Ok d /\ indirect_decode lookup d = Ok v /\ ztake 1 d = [76] /\ slice 1 17 d = a.
Proof.
  intros lookup given v a t Ha Hl La Hv. destruct (C44_value_roundtrip_partial t v Hv) as (d & E & D & _). exists ([76] ++ a ++ d).
  unfold indirect_encode, indirect_decode. rewrite Ha. cbn [bind]. rewrite Hl, E. cbn [bind]. split; auto.
  assert (S : slice 1 17 ([76] ++ a ++ d) = a).
  { unfold slice. replace (zdrop 1 ([76] ++ a ++ d)) with (a ++ d) by (symmetry; apply (zdrop_app_exact _ [76] (a ++ d))). change (17 - 1) with 16. assert (Za : zlen a = 16) by (unfold zlen; lia). rewrite <- Za. apply ztake_app_exact. }
  assert (Z0 : zdrop 17 ([76] ++ a ++ d) = d).
  { rewrite app_assoc. assert (Za : zlen ([76] ++ a) = 17) by (unfold zlen; rewrite app_length, La; auto). rewrite <- Za at 1. apply zdrop_app_exact. }
  rewrite S, Z0, Hl. replace (slice 0 1 ([76] ++ a ++ d)) with [76].
  - rewrite (proj2 (zlist_eqb_eq [76] [76])) by auto. split; auto. split; auto. apply (ztake_app_exact _ [76] (a ++ d)).
  - unfold slice. rewrite zdrop_0 by lia. symmetry. apply (ztake_app_exact _ [76] (a ++ d)).
Qed.
End Props.

Print Assumptions C40_int_roundtrip. Print Assumptions C40_int_refused. Print Assumptions C40_int_decode_total. Print Assumptions C40_bool. Print Assumptions C40_size_refused.
Print Assumptions C41_int_array_roundtrip_partial. Print Assumptions C41_array_roundtrip_partial. Print Assumptions C41_set_roundtrip_partial.
Print Assumptions C41_fixed_int_array_partial. Print Assumptions C41_fixed_array_refuted. Print Assumptions C41_fixed_array_full_partial. Print Assumptions C41_fixed_read_partial.
Print Assumptions C41_fixed_too_many_partial. Print Assumptions C41_fixed_empty_partial. Print Assumptions C41_uuid_array_refuted.
Print Assumptions C42_string_roundtrip_partial. Print Assumptions C42_string_nul_partial. Print Assumptions C42_string_refused_partial.
Print Assumptions C42_string_array_roundtrip_partial. Print Assumptions C42_string_array_refuted.
Print Assumptions C43_enum_names. Print Assumptions C43_register_keeps. Print Assumptions C43_boolean.
Print Assumptions C43_extenum_names. Print Assumptions C43_ext_register_keeps.
Print Assumptions C44_value_roundtrip_partial. Print Assumptions C44_special_records_partial. Print Assumptions C44_plain_record_partial. Print Assumptions C44_no_date_partial. Print Assumptions C44_time_fraction_refuted.
Print Assumptions C45_rational_unreduced. Print Assumptions C45_rational_quotient. Print Assumptions C45_rational_zero. Print Assumptions C45_rational_stored.
Print Assumptions C58_indirect_roundtrip.

(** Cases *)
Definition id_lower (s : list Z) := s.
Definition id_iter (l : list val) := l.
Example C40_case : int_range 2 true (-300) /\ encode id_lower id_iter (TInt 2 true) (VInt (-300)) = Ok [212; 254] /\ ~ int_range 2 false 70000.
Proof. split; [unfold int_range; cbn; lia|]. split; [reflexivity|]. unfold int_range. cbn. lia. Qed.
Example C41_case : okval id_lower (TVar rational_t) (VSeq [VRat 24000 1001; VRat 2 4]) /\
  encode id_lower id_iter (TFixed (TInt 2 false) 3) (VSeq [VInt 1; VInt 2]) = Ok [1;0; 2;0; 0;0; 0;0] /\
  decode (TFixed (TInt 2 false) 3) [1;0; 2;0; 0;0; 0;0] = Ok (VSeq [VInt 1; VInt 2; VInt 0; VInt 0]).
Proof.
  split; [|split; vm_compute; reflexivity]. exists [VRat 24000 1001; VRat 2 4], 8. split; auto. split; [|split; [reflexivity|lia]].
  repeat constructor; eexists; eexists; (split; [reflexivity|]); (split; [lia|]); (split; [cbn; repeat constructor; cbn; intuition discriminate|]);
    repeat (split; [reflexivity|]; split; [eexists; reflexivity|]; split; [split; [unfold int_size; lia|]; eexists; split; [reflexivity|]; unfold int_range; cbn; lia|]); exact I.
Qed.
Example C42_case : good_name [72; 128512] /\ encode id_lower id_iter TString (VStr [72; 128512]) = Ok [72;0; 61;216;0;222; 0;0].
Proof. split; [|vm_compute; reflexivity]. split; [repeat constructor; unfold scalar; lia|]. intros [H|[H|[]]]; discriminate. Qed.
Example C43_case : enum_table [(3, codes "three"); (-1, codes "minus")] /\ NoDup (map snd [(3, codes "three"); (-1, codes "minus")]).
Proof.
  split; [split|].
  - repeat constructor; cbn; intuition discriminate.
  - assert (G : forall s, forallb (fun c => (1 <=? c) && (c <? 55296)) s = true -> good_name s).
    { intros s H. rewrite forallb_forall in H. split.
      - apply Forall_forall. intros c Hc. apply H in Hc. unfold scalar. lia.
      - intros X. apply H in X. lia. }
    constructor; [split; [apply G; reflexivity|cbn; lia]|]. constructor; [split; [apply G; reflexivity|cbn; lia]|constructor].
  - repeat constructor; cbn; intuition discriminate.
Qed.
Example C44_case : date_ok 2024 2 29 = true /\ date_ok 2023 2 29 = false /\
  encode id_lower id_iter stamp_t (VDateTime 2024 2 29 23 59 58 0) = Ok [232;7; 2; 29; 23; 59; 58; 0].
Proof. vm_compute. auto. Qed.
Example C40_size_case : ~ int_size 3 /\ encode id_lower id_iter (TInt 3 false) (VInt 5) = Err PropertyError.
Proof. split; [unfold int_size; lia|reflexivity]. Qed.
Example C41_fixed_read_case : decode (TFixed (TInt 2 false) 3) [1;0; 2;0; 3;0] = Ok (VSeq [VInt 1; VInt 2; VInt 3]) /\ byte_size (TFixed (TInt 2 false) 3) = Ok 6.
Proof. split; vm_compute; reflexivity. Qed.
Example C44_calendar_case : a_date 2000 2 29 /\ ~ a_date 1900 2 29 /\ ~ a_date 2023 4 31 /\ ~ a_time 24 0 0 0.
Proof.
  split; [apply date_spec; reflexivity|]. split; [intros H; apply date_spec in H; discriminate|].
  split; [intros H; apply date_spec in H; discriminate|]. intros H; apply time_spec in H; discriminate.
Qed.
