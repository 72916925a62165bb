(** Facts about the property value codecs of TypesModel. *)
From Verif Require Import Base BaseFacts Codec CodecFacts Text TextFacts TypesModel IdsFacts.
From Coq Require Import ZArith List Bool Lia String.
Import ListNotations.
Open Scope Z_scope.

(** ** Integers *)
Definition int_size (size : Z) : Prop := size = 1 \/ size = 2 \/ size = 4 \/ size = 8.
(** the range of an integer type, in bits *)
Definition int_range (size : Z) (sg : bool) (z : Z) : Prop :=
  if sg then - 2 ^ (8 * size - 1) <= z < 2 ^ (8 * size - 1) else 0 <= z < 2 ^ (8 * size).

Lemma int_fmt_ok : forall size, int_size size -> int_fmt size = Ok (Z.to_nat size).
Proof. intros size H. unfold int_fmt. destruct H as [->|[->|[->| ->]]]; reflexivity. Qed.
Lemma int_fmt_bad : forall size, ~ int_size size -> int_fmt size = Err PropertyError.
Proof. intros size H. unfold int_fmt, int_size in *. replace ((size =? 1) || (size =? 2) || (size =? 4) || (size =? 8)) with false by lia. auto. Qed.

Lemma int_range_spec : forall size sg z, int_size size -> (int_range size sg z <->
  if sg then - (256 ^ Z.of_nat (Z.to_nat size) / 2) <= z < 256 ^ Z.of_nat (Z.to_nat size) / 2 else 0 <= z < 256 ^ Z.of_nat (Z.to_nat size)).
Proof. intros size sg z H. unfold int_range. destruct sg, H as [->|[->|[->| ->]]]; cbn; reflexivity. Qed.

Lemma pack_int_ok : forall size sg z, int_size size -> int_range size sg z ->
  exists d, pack_int sg (Z.to_nat size) z = Ok d /\ bytes d /\ zlen d = size /\ unpack_int sg (Z.to_nat size) d = Ok z.
Proof.
  intros size sg z Hs H. apply int_range_spec in H; auto. assert (Hn : (0 < Z.to_nat size)%nat) by (unfold int_size in Hs; lia).
  destruct sg; cbn [pack_int unpack_int].
  - destruct (pack_s (Z.to_nat size) z) as [d|] eqn:E.
    + exists d. split; auto. pose proof E as E'. apply pack_s_Ok in E. destruct E as [_ ->]. split; [apply le_bytes_bytes|].
      split; [rewrite zlen_le_bytes; lia|]. apply unpack_pack_s in E'; auto.
    + exfalso. unfold pack_s in E. replace ((- (256 ^ Z.of_nat (Z.to_nat size) / 2) <=? z) && (z <? 256 ^ Z.of_nat (Z.to_nat size) / 2)) with true in E by lia. discriminate.
  - destruct (pack_u (Z.to_nat size) z) as [d|] eqn:E.
    + exists d. split; auto. pose proof E as E'. apply pack_u_Ok in E. destruct E as [_ ->]. split; [apply le_bytes_bytes|].
      split; [rewrite zlen_le_bytes; lia|]. apply unpack_pack_u in E'; auto.
    + exfalso. unfold pack_u in E. replace ((0 <=? z) && (z <? 256 ^ Z.of_nat (Z.to_nat size))) with true in E by lia. discriminate.
Qed.

Lemma pack_int_bad : forall size sg z, int_size size -> ~ int_range size sg z -> pack_int sg (Z.to_nat size) z = Err StructError.
Proof.
  intros size sg z Hs H. rewrite int_range_spec in H by auto. destruct sg; cbn [pack_int]; [unfold pack_s|unfold pack_u].
  - replace ((- (256 ^ Z.of_nat (Z.to_nat size) / 2) <=? z) && (z <? 256 ^ Z.of_nat (Z.to_nat size) / 2)) with false by lia. auto.
  - replace ((0 <=? z) && (z <? 256 ^ Z.of_nat (Z.to_nat size))) with false by lia. auto.
Qed.

Lemma int_roundtrip : forall size sg z, int_size size -> int_range size sg z ->
  exists d, int_encode size sg (VInt z) = Ok d /\ bytes d /\ zlen d = size /\ int_decode size sg d = Ok (VInt z).
Proof.
  intros size sg z Hs H. destruct (pack_int_ok size sg z Hs H) as (d & E & Hb & L & U). exists d. unfold int_encode, int_decode.
  rewrite int_fmt_ok by auto. cbn [bind]. split; auto. split; auto. split; auto. rewrite L, Z.eqb_refl, U. auto.
Qed.

Lemma pack_all_ok : forall size sg l, int_size size -> Forall (int_range size sg) l ->
  exists d, pack_all sg (Z.to_nat size) (map VInt l) = Ok d /\ bytes d /\ zlen d = size * zlen l /\
    unpack_go sg (Z.to_nat size) (List.length l) d = Ok (map VInt l).
Proof.
  intros size sg l Hs H. induction H as [|z l Hz _ IH].
  - exists []. repeat split; cbn; auto. constructor. lia.
  - destruct IH as (d & E & Hb & L & U). destruct (pack_int_ok size sg z Hs Hz) as (d0 & E0 & Hb0 & L0 & U0).
    exists (d0 ++ d). cbn [map pack_all List.length unpack_go]. rewrite E0, E. cbn [bind]. split; auto.
    split; [apply bytes_app; auto|]. split; [rewrite zlen_app, zlen_cons; lia|].
    assert (Ls : Z.of_nat (Z.to_nat size) = zlen d0) by (unfold int_size in Hs; lia). rewrite Ls.
    rewrite ztake_app_exact, zdrop_app_exact. rewrite U0. cbn [bind]. rewrite U. auto.
Qed.

Lemma ints_roundtrip : forall size sg l, int_size size -> Forall (int_range size sg) l ->
  exists d, pack_all sg (Z.to_nat size) (map VInt l) = Ok d /\ bytes d /\ ints_decode size sg d = Ok (map VInt l).
Proof.
  intros size sg l Hs H. destruct (pack_all_ok size sg l Hs H) as (d & E & Hb & L & U). exists d. split; auto. split; auto.
  unfold ints_decode. replace (size =? 0) with false by (unfold int_size in Hs; lia). cbn [negb]. rewrite int_fmt_ok by auto. cbn [bind].
  unfold unpack_all. rewrite L. rewrite Z.mul_comm, Z.div_mul by (unfold int_size in Hs; lia).
  replace (zlen l * size =? Z.of_nat (Z.to_nat size) * zlen l) with true by (unfold int_size in Hs; nia).
  unfold zlen. rewrite Nat2Z.id. exact U.
Qed.

(** ** Strings *)
Definition good_name (s : list Z) : Prop := text s /\ nul_free s.

Lemma string_roundtrip : forall s, good_name s -> exists d, encode_utf16le s = Ok d /\ bytes d /\ decode_utf16le d = s.
Proof.
  intros s [Ht Hn]. exists (enc16 s ++ [0; 0]). unfold encode_utf16le. rewrite encode_utf16_text by auto. cbn [bind]. split; auto. split.
  - apply bytes_app. split; [apply bytes_enc16|]. repeat constructor; unfold is_byte; lia.
  - apply decode_utf16_padded; auto. right. exists []. auto.
Qed.

Lemma strict_units : forall s, text s -> decode_units_strict (flat_map utf16_units s) = Ok s.
Proof.
  induction 1 as [|c s Hc _ IH]; auto. cbn [flat_map]. unfold utf16_units at 1. destruct (Z.ltb_spec c 65536) as [L|L].
  - cbn [app decode_units_strict]. replace (is_surrogate c) with false by (unfold is_surrogate, scalar in *; lia). rewrite IH. auto.
  - cbn [app decode_units_strict]. replace (is_surrogate (55296 + (c - 65536) / 1024)) with true by (unfold is_surrogate, scalar in *; lia).
    replace ((55296 + (c - 65536) / 1024 <? 56320) && (56320 <=? 56320 + (c - 65536) mod 1024) && (56320 + (c - 65536) mod 1024 <? 57344)) with true by (unfold scalar in *; lia).
    rewrite IH. cbn [bind]. do 2 f_equal. lia.
Qed.
Lemma strict_text : forall s, text s -> decode_strict (enc16 s) = Ok s.
Proof. intros s H. unfold decode_strict. rewrite enc16_units, units_of_le2 by (apply text_units; auto). apply strict_units. auto. Qed.

(** a pair of zero bytes at an even place is a NUL character *)
Lemma iter_units : forall us acc t, Forall unit16 us -> ~ In 0 us ->
  iter_utf16 acc (flat_map (le_bytes 2) us ++ t) = iter_utf16 (acc ++ flat_map (le_bytes 2) us) t.
Proof.
  induction us as [|u us IH]; intros acc t Hu Hn; cbn [flat_map app]; [rewrite app_nil_r; auto|].
  inversion Hu as [|? ? H1 H2]; subst. cbn [le_bytes app iter_utf16].
  replace ((u mod 256 =? 0) && (u / 256 mod 256 =? 0)) with false.
  - rewrite IH; auto; [|intros X; apply Hn; right; auto]. rewrite <- app_assoc. reflexivity.
  - assert (u <> 0) by (intros ->; apply Hn; left; auto). unfold unit16 in H1. lia.
Qed.
Lemma units_nul : forall s, text s -> nul_free s -> ~ In 0 (flat_map utf16_units s).
Proof.
  intros s Ht Hn X. apply in_flat_map in X. destruct X as (c & Hc & X). unfold text in Ht. rewrite Forall_forall in Ht. apply Ht in Hc as Sc.
  unfold utf16_units in X. destruct (c <? 65536) eqn:L.
  - destruct X as [X|[]]. subst. auto.
  - destruct X as [X|[X|[]]]; unfold scalar in Sc; lia.
Qed.

Lemma names_roundtrip : forall l, Forall good_name l -> exists d, encode_utf16_array l = Ok d /\ bytes d /\ iter_utf16_array d = Ok l.
Proof.
  intros l H. unfold iter_utf16_array. induction H as [|s l [Ht Hn] _ IH].
  - exists []. repeat split; auto. constructor.
  - destruct IH as (d & E & Hb & D). exists ((enc16 s ++ [0; 0]) ++ d). cbn [encode_utf16_array]. unfold encode_utf16le. rewrite encode_utf16_text by auto. rewrite E. cbn [bind].
    split; auto. split.
    + rewrite !bytes_app. split; [split|]; auto. apply bytes_enc16. repeat constructor; unfold is_byte; lia.
    + rewrite <- app_assoc. rewrite enc16_units. rewrite iter_units; [|apply text_units; auto|apply units_nul; auto].
      rewrite <- enc16_units. cbn [app iter_utf16]. replace ((0 =? 0) && (0 =? 0)) with true by reflexivity. rewrite strict_text by auto. cbn [bind]. rewrite D. auto.
Qed.

Lemma encode_array_vals : forall l, (fix go (l : list val) : result (list Z) :=
   match l with [] => Ok [] | VStr s :: r => do d <- encode_utf16le s ;; do e <- go r ;; Ok (d ++ e) | _ :: _ => Err GenericError end) (map VStr l) = encode_utf16_array l.
Proof. induction l as [|s l IH]; cbn; auto. destruct (encode_utf16le s); cbn; auto. rewrite IH. auto. Qed.

(** ** Dictionaries *)
Section Dict.
Context {K V : Type} (keqb : K -> K -> bool) (keqb_eq : forall a b, keqb a b = true <-> a = b).
Lemma keqb_refl : forall a, keqb a a = true. Proof. intros. apply keqb_eq. auto. Qed.
Lemma keqb_neq : forall a b, a <> b -> keqb a b = false.
Proof. intros a b H. destruct (keqb a b) eqn:E; auto. apply keqb_eq in E. contradiction. Qed.

Lemma dict_set_new : forall (d : list (K * V)) k v, ~ In k (map fst d) -> dict_set keqb d k v = d ++ [(k, v)].
Proof.
  induction d as [|[k' v'] d IH]; intros k v H; auto. cbn in *. rewrite keqb_neq by (intros ->; auto). rewrite IH; auto.
Qed.
Lemma dict_of_new : forall (l acc : list (K * V)), NoDup (map fst (acc ++ l)) -> dict_of keqb acc l = acc ++ l.
Proof.
  induction l as [|[k v] l IH]; intros acc H; cbn [dict_of]; [rewrite app_nil_r; auto|].
  rewrite dict_set_new.
  - rewrite IH; rewrite <- app_assoc; auto.
  - rewrite map_app in H. cbn [map] in H. apply NoDup_remove_2 in H. intros X. apply H. apply in_or_app. auto.
Qed.
Lemma dict_get_in : forall (d : list (K * V)) k v, NoDup (map fst d) -> In (k, v) d -> dict_get keqb d k = Some v.
Proof.
  induction d as [|[k' v'] d IH]; intros k v H I; [destruct I|]. cbn in *. inversion H; subst. destruct I as [I|I].
  - injection I as -> ->. rewrite keqb_refl. auto.
  - rewrite keqb_neq; auto. intros ->. apply H2. apply in_map_iff. exists (k, v). auto.
Qed.
Lemma dict_get_none : forall (d : list (K * V)) k, ~ In k (map fst d) -> dict_get keqb d k = None.
Proof. induction d as [|[k' v'] d IH]; intros k H; auto. cbn in *. rewrite keqb_neq by (intros ->; auto). auto. Qed.
Lemma dict_set_keys : forall (d : list (K * V)) k v, NoDup (map fst d) -> NoDup (map fst (dict_set keqb d k v)) /\
  (forall x, In x (map fst (dict_set keqb d k v)) <-> x = k \/ In x (map fst d)).
Proof.
  induction d as [|[k' v'] d IH]; intros k v H; cbn.
  - split; [repeat constructor; auto|]. intros x. intuition.
  - inversion H; subst. destruct (keqb k' k) eqn:E.
    + apply keqb_eq in E. subst. cbn. split; [constructor; auto|]. intros x. intuition.
    + destruct (IH k v H3) as [N I]. cbn. split.
      * constructor; auto. rewrite I. intros [->|X]; auto. rewrite keqb_refl in E. discriminate.
      * intros x. rewrite I. intuition.
Qed.
Lemma dict_of_keys : forall (l acc : list (K * V)), NoDup (map fst acc) -> NoDup (map fst (dict_of keqb acc l)).
Proof. induction l as [|[k v] l IH]; intros acc H; cbn; auto. apply IH. apply dict_set_keys. auto. Qed.
Lemma dict_zip_keys : forall (ks : list K) (vs : list V), NoDup (map fst (dict_zip keqb ks vs)).
Proof. intros. apply dict_of_keys. constructor. Qed.
Lemma combine_fst : forall (ks : list K) (vs : list V), List.length ks = List.length vs -> map fst (combine ks vs) = ks.
Proof. induction ks as [|k ks IH]; intros [|v vs] L; cbn in *; try lia; auto. rewrite IH; auto. Qed.
Lemma combine_map : forall (l : list (K * V)), combine (map fst l) (map snd l) = l.
Proof. induction l as [|[k v] l IH]; cbn; auto. rewrite IH. auto. Qed.
Lemma dict_zip_map : forall (l : list (K * V)), NoDup (map fst l) -> dict_zip keqb (map fst l) (map snd l) = l.
Proof. intros l H. unfold dict_zip. rewrite combine_map. rewrite dict_of_new by auto. auto. Qed.
End Dict.

(** ** Enumerations *)
Lemma unvals_map : forall l, unvals (map VInt l) = l.
Proof. induction l; cbn; congruence. Qed.
Lemma s64_array_pack : forall l, s64_array l = pack_all true 8 (map VInt l).
Proof. induction l as [|z l IH]; cbn; auto. destruct (pack_s 8 z); cbn; auto. rewrite IH. auto. Qed.

Definition enum_table (el : list (Z * list Z)) : Prop :=
  NoDup (map fst el) /\ Forall (fun x => good_name (snd x) /\ - 2 ^ 63 <= fst x < 2 ^ 63) el.

Lemma enum_tables : forall el, enum_table el -> exists ns vs,
  encode_utf16_array (map snd el) = Ok ns /\ pack_all true 8 (map VInt (map fst el)) = Ok vs /\ bytes ns /\ bytes vs /\ enum_elements ns vs = Ok el.
Proof.
  intros el [N F]. destruct (names_roundtrip (map snd el)) as (ns & E1 & B1 & D1).
  { rewrite Forall_map. eapply Forall_impl; [|apply F]. cbn. tauto. }
  destruct (pack_all_ok 8 true (map fst el)) as (vs & E2 & B2 & L2 & D2). { right. auto. }
  { rewrite Forall_map. eapply Forall_impl; [|apply F]. cbn. unfold int_range. cbn. tauto. }
  change (Z.to_nat 8) with 8%nat in *. exists ns, vs. repeat split; auto. unfold enum_elements. rewrite D1. cbn [bind]. unfold unpack_all.
  rewrite L2. unfold zlen. rewrite !map_length. replace (8 * Z.of_nat (List.length el) =? Z.of_nat 8 * Z.of_nat (List.length el)) with true by lia.
  rewrite Nat2Z.id. rewrite map_length in D2. rewrite D2. cbn [bind]. rewrite unvals_map. rewrite dict_zip_map; auto. apply Z.eqb_eq.
Qed.

Lemma enum_new_elements : forall el, enum_table el -> exists ns vs, enum_new el = Ok (ns, vs) /\ enum_elements ns vs = Ok el.
Proof.
  intros el H. destruct (enum_tables el H) as (ns & vs & E1 & E2 & _ & _ & E3). exists ns, vs. unfold enum_new. rewrite E1, s64_array_pack, E2. auto.
Qed.

Lemma enum_elements_keys : forall ns vs el, enum_elements ns vs = Ok el -> NoDup (map fst el).
Proof.
  intros ns vs el H. unfold enum_elements in H. destruct (iter_utf16_array ns); [|discriminate]. cbn [bind] in H.
  destruct (unpack_all true 8 (zlen a) vs); [|discriminate]. cbn [bind] in H. injection H as <-. apply dict_zip_keys. apply Z.eqb_eq.
Qed.

Lemma find_name : forall el z s, NoDup (map snd el) -> In (z, s) el -> enum_find el (VStr s) = Some z.
Proof.
  induction el as [|[z' s'] el IH]; intros z s N I; [destruct I|]. cbn in N. inversion N; subst. unfold enum_find. cbn [find snd].
  destruct I as [I|I].
  - injection I as -> ->. replace (zlist_eqb s s) with true by (symmetry; apply zlist_eqb_eq; auto). auto.
  - destruct (zlist_eqb s' s) eqn:E.
    + apply zlist_eqb_eq in E. subst. exfalso. apply H1. apply in_map_iff. exists (z, s). auto.
    + apply IH; auto.
Qed.
Lemma find_value : forall el z s, NoDup (map fst el) -> In (z, s) el -> enum_find el (VInt z) = Some z.
Proof.
  induction el as [|[z' s'] el IH]; intros z s N I; [destruct I|]. cbn in N. inversion N; subst. unfold enum_find. cbn [find fst].
  destruct I as [I|I].
  - injection I as -> ->. rewrite Z.eqb_refl. auto.
  - destruct (z' =? z) eqn:E.
    + apply Z.eqb_eq in E. subst. auto.
    + eapply IH; eauto.
Qed.
Lemma find_unknown : forall el v, (forall z s, In (z, s) el -> v <> VStr s /\ v <> VInt z /\ (forall b, v = VBool b -> z <> if b then 1 else 0)) -> enum_find el v = None.
Proof.
  intros el v H. unfold enum_find. destruct (find _ el) as [[z s]|] eqn:E; auto. apply find_some in E. destruct E as [I E]. destruct (H z s I) as (H1 & H2 & H3).
  destruct v; try discriminate; cbn in E.
  - apply Z.eqb_eq in E. congruence.
  - apply Z.eqb_eq in E. exfalso. exact (H3 b eq_refl E).
  - apply zlist_eqb_eq in E. congruence.
Qed.

Lemma insert_item_in : forall x l y, In y (insert_item x l) <-> y = x \/ In y l.
Proof. induction l as [|z l IH]; intros y; cbn; [intuition|]. destruct (fst x <=? fst z); cbn; [intuition|]. rewrite IH. intuition. Qed.
Lemma sort_items_in : forall l y, In y (sort_items l) <-> In y l.
Proof. induction l as [|x l IH]; intros y; cbn; [tauto|]. rewrite insert_item_in, IH. intuition. Qed.
Lemma insert_item_nodup : forall x l, NoDup (map fst l) -> ~ In (fst x) (map fst l) -> NoDup (map fst (insert_item x l)).
Proof.
  induction l as [|z l IH]; intros N I; cbn; [constructor; auto|]. destruct (fst x <=? fst z); cbn; [constructor; auto|]. cbn in N, I. inversion N; subst.
  constructor; [|apply IH; auto]. intros X. apply in_map_iff in X. destruct X as (y & E & X). apply insert_item_in in X. destruct X as [->|X].
  - apply I. left. auto.
  - apply H1. rewrite <- E. apply in_map. auto.
Qed.
Lemma sort_items_nodup : forall l, NoDup (map fst l) -> NoDup (map fst (sort_items l)).
Proof.
  induction l as [|x l IH]; intros N; cbn; auto. cbn in N. inversion N; subst. apply insert_item_nodup; auto.
  intros X. apply H1. apply in_map_iff in X. destruct X as (y & E & X). apply (proj1 (sort_items_in l y)) in X. rewrite <- E. apply in_map. auto.
Qed.

Lemma NoDup_snoc : forall A (l : list A) x, NoDup l -> ~ In x l -> NoDup (l ++ [x]).
Proof. intros A l x H I. apply NoDup_app_iff. split; auto. split; [repeat constructor; auto|]. intros y Hy [->|[]]. auto. Qed.

Lemma register_ok : forall ns vs el name value, enum_elements ns vs = Ok el -> enum_table el -> good_name name -> - 2 ^ 63 <= value < 2 ^ 63 ->
  exists ns' vs' el', register_element ns vs name value = Ok (ns', vs') /\ enum_elements ns' vs' = Ok el' /\ enum_table el' /\
    (forall x, In x el' <-> In x el \/ (x = (value, name) /\ ~ In value (map fst el) /\ ~ In name (map snd el))).
Proof.
  intros ns vs el name value H [N F] Hn Hv. unfold register_element. rewrite H. cbn [bind].
  destruct (existsb _ el) eqn:E.
  - exists ns, vs, el. split; [reflexivity|]. split; [auto|]. split; [split; auto|]. intros x; split; auto. intros [X|(-> & X1 & X2)]; auto. exfalso. apply existsb_exists in E. destruct E as ([z s] & I & E). cbn in E.
    apply orb_true_iff in E. destruct E as [E|E].
    + apply Z.eqb_eq in E. subst. apply X1. apply in_map_iff. exists (value, s). auto.
    + apply zlist_eqb_eq in E. subst. apply X2. apply in_map_iff. exists (z, name). auto.
  - assert (X1 : ~ In value (map fst el)).
    { intros X. apply in_map_iff in X. destruct X as ([z s] & Ez & I). cbn in Ez. subst. rewrite <- Bool.not_true_iff_false in E. apply E. apply existsb_exists.
      exists (value, s). split; auto. cbn. rewrite Z.eqb_refl. auto. }
    assert (X2 : ~ In name (map snd el)).
    { intros X. apply in_map_iff in X. destruct X as ([z s] & Ez & I). cbn in Ez. subst. rewrite <- Bool.not_true_iff_false in E. apply E. apply existsb_exists.
      exists (z, name). split; auto. cbn. rewrite (proj2 (zlist_eqb_eq name name)) by auto. apply orb_true_r. }
    set (el' := sort_items el ++ [(value, name)]).
    assert (I' : forall x, In x el' <-> In x el \/ x = (value, name)).
    { intros x. unfold el'. rewrite in_app_iff, sort_items_in. cbn. intuition. }
    assert (T' : enum_table el').
    { split.
      - unfold el'. rewrite map_app. cbn [map fst]. apply NoDup_snoc.
        + apply sort_items_nodup. auto.
        + intros X. apply X1. apply in_map_iff in X. destruct X as (y & Ey & X). apply (proj1 (sort_items_in el y)) in X. rewrite <- Ey. apply in_map. auto.
      - apply Forall_forall. intros x X. apply I' in X. destruct X as [X| ->]; auto. rewrite Forall_forall in F. auto. }
    destruct (enum_tables el' T') as (ns' & vs' & E1 & E2 & _ & _ & E3). exists ns', vs', el'. rewrite E1. cbn [bind]. rewrite map_map in E2. rewrite E2. split; [reflexivity|]. split; [auto|]. split; [auto|]. intros x; split.
    + intros X. apply I' in X. destruct X as [X| ->]; auto.
    + intros [X|(-> & _)]; apply I'; auto.
Qed.
