(** C52-C56: KLV packets, local tags, the KAG, DNx frames, WAVE and AIFC chunks. *)
From Verif Require Import Base BaseFacts Codec CodecFacts IdsModel IdsFacts MediaModel MediaFacts.
From Coq Require Import ZArith List Bool Lia Sorting.
Import ListNotations.
Open Scope Z_scope.

(** ** C52 *)

(** Scanning encoded packets, wherever they start in the file and whatever the form of each length,
    reports exactly these packets in order and stops at the end. *)
Theorem C52_scan : forall ps pre fuel, Forall packet_ok ps -> (length ps < fuel)%nat ->
  zlen (pre ++ flat_map enc_packet ps) < 2 ^ 63 ->
  exists ys, iter_kl fuel (pre ++ flat_map enc_packet ps) (zlen pre) = (ys, Ok tt) /\
    map shown ys = report (zlen pre) ps.
Proof.
  induction ps as [|p ps IH]; intros pre fuel H Hf Hs.
  - destruct fuel; [inversion Hf|]. cbn [flat_map]. rewrite app_nil_r in *. rewrite iter_kl_S.
    replace (off_max <=? zlen pre) with false by (unfold off_max; lia). rewrite fread_end by lia. exists []. auto.
  - destruct fuel as [|fuel]; [inversion Hf|]. inversion H as [|? ? (Hk & Hb & Hform) Hr]; subst. cbn [flat_map] in *. unfold enc_packet at 1 in Hs. unfold enc_packet at 1.
    set (rest := flat_map enc_packet ps) in *. set (b := ber (pk_form p) (zlen (pk_value p))) in *.
    assert (Lk : zlen (pk_key p) = 16) by (unfold zlen; lia).
    assert (E : pre ++ (pk_key p ++ b ++ pk_value p) ++ rest = pre ++ pk_key p ++ (b ++ pk_value p ++ rest)) by (rewrite <- !app_assoc; auto).
    assert (Ek : fread (pre ++ pk_key p ++ (b ++ pk_value p ++ rest)) (zlen pre) 16 = pk_key p) by (apply fread_at; auto).
    rewrite E in *. rewrite kl_step.
    2:{ rewrite !zlen_app in Hs. unfold off_max. pose proof (zlen_nonneg _ b). pose proof (zlen_nonneg _ (pk_value p)). pose proof (zlen_nonneg _ rest). lia. }
    2:{ rewrite Ek. intros C. rewrite C in Hk. discriminate. }
    rewrite Ek, Lk. replace (zlen pre + 16) with (zlen (pre ++ pk_key p)) by (rewrite zlen_app; lia).
    rewrite app_assoc. unfold b. rewrite ber_length_app by (auto using zlen_nonneg). fold b.
    replace (zlen (pre ++ pk_key p) + zlen b + zlen (pk_value p)) with (zlen (pre ++ pk_key p ++ b ++ pk_value p)) by (rewrite !zlen_app; lia).
    replace ((pre ++ pk_key p) ++ b ++ pk_value p ++ rest) with ((pre ++ pk_key p ++ b ++ pk_value p) ++ rest) by (rewrite <- !app_assoc; auto).
    destruct (IH (pre ++ pk_key p ++ b ++ pk_value p) fuel) as (ys & Ey & Er); auto; [cbn in Hf; lia| |].
    { fold rest. rewrite !zlen_app in *. lia. }
    fold rest in Ey. rewrite Ey. eexists. split; [reflexivity|]. cbn [map shown report]. fold b. f_equal.
    + unfold auid_bytes_be, auid_of_be. rewrite swap_swap by auto. rewrite zlen_app, Lk. auto.
    + rewrite Er. f_equal. rewrite !zlen_app. lia.
Qed.

(** On every byte string the scan ends, without running out of the model's fuel, and whatever it
    reports lies at strictly increasing positions, at least 17 bytes apart. *)
Definition vpos (y : list Z * Z * Z) : Z := snd y.
Theorem C52_terminates : forall d, bytes d -> forall fuel pos, 0 <= pos -> zlen d - pos < Z.of_nat fuel -> (0 < fuel)%nat ->
  snd (iter_kl fuel d pos) <> Err OutOfFuel /\
  Forall (fun y => pos + 17 <= vpos y <= zlen d) (fst (iter_kl fuel d pos)) /\
  StronglySorted (fun a b => vpos a + snd (fst a) + 17 <= vpos b) (fst (iter_kl fuel d pos)).
Proof.
  intros d Hb. induction fuel as [|fuel IH]; intros pos Hp Hf H0; [inversion H0|].
  rewrite iter_kl_S. destruct (off_max <=? pos) eqn:Ho.
  { cbn. split; [discriminate|]. split; constructor. }
  set (data := fread d pos 16). destruct data as [|z data'] eqn:Ed.
  { cbn. split; [discriminate|]. split; constructor. }
  rewrite <- Ed. clear Ed z data'. pose proof (zlen_nonneg _ data).
  destruct (ber_length d (pos + zlen data)) as [[l p]|e] eqn:E.
  - apply ber_length_nonneg in E; auto; [|lia]. destruct E as (Hl & Hpos & _).
    assert (L16 : zlen data = 16). { unfold data, fread in *. rewrite zlen_ztake, zlen_zdrop in * by lia. lia. }
    specialize (IH (p + l)). destruct (iter_kl fuel d (p + l)) as [ys r]. cbn [fst snd] in *. destruct IH as (I1 & I2 & I3); [lia|lia|lia|].
    split; [auto|]. split.
    + constructor. { unfold vpos; cbn. lia. } eapply Forall_impl; [|apply I2]. cbn. intros; lia.
    + constructor; auto. eapply Forall_impl; [|apply I2]. cbn. unfold vpos; cbn. intros; lia.
  - cbn. split; [|split; constructor]. unfold ber_length, read_be in E. intros C; injection C as ->.
    destruct (zlen (fread d (pos + zlen data) (Z.of_nat 1)) =? Z.of_nat 1); cbn [bind] in E; [|discriminate].
    destruct (127 <? _); [|discriminate]. destruct (_ =? _); discriminate.
Qed.

(** Conversely a byte string that scans without an error is a sequence of packets, of which only the
    last can have its value cut short by the end of the file. *)
Theorem C52_decode : forall d, bytes d -> forall fuel pos ys, 0 <= pos <= zlen d -> iter_kl fuel d pos = (ys, Ok tt) ->
  exists ps t, Forall packet_ok ps /\ flat_map enc_packet ps = zdrop pos d ++ t /\ map shown ys = report pos ps /\
    (t = [] \/ exists ps' p, ps = ps' ++ [p] /\ zlen t <= zlen (pk_value p)).
Proof.
  intros d Hb. induction fuel as [|fuel IH]; intros pos ys Hp H; [discriminate|].
  rewrite iter_kl_S in H. destruct (off_max <=? pos); [discriminate|].
  set (data := fread d pos 16) in *. destruct data as [|z data'] eqn:Ed.
  { injection H as <-. exists [], []. split; auto. split; [|split; auto]. cbn. rewrite app_nil_r.
    assert (L : zlen data = 0) by (rewrite Ed; auto). unfold data, fread in L. rewrite zlen_ztake, zlen_zdrop in L by lia. rewrite zdrop_all; auto; lia. }
  rewrite <- Ed in *. clear Ed z data'. pose proof (zlen_nonneg _ data).
  destruct (ber_length d (pos + zlen data)) as [[l p]|e] eqn:E; [|discriminate].
  apply ber_length_nonneg in E; auto; [|lia]. destruct E as (Hl & Hpos & form & Hform & Edrop & Ep).
  assert (L16 : zlen data = 16). { unfold data, fread in *. rewrite zlen_ztake, zlen_zdrop in * by lia. lia. }
  destruct (iter_kl fuel d (p + l)) as [ys' r] eqn:Er. injection H as <- ->.
  assert (Bd : bytes data) by (apply Forall_ztake, Forall_zdrop; auto).
  assert (Hd : zdrop pos d = data ++ ber form l ++ zdrop p d).
  { rewrite (fread_split d pos 16) by lia. fold data. rewrite Edrop. auto. }
  destruct (Z.le_gt_cases (p + l) (zlen d)) as [C|C].
  - assert (R : 0 <= p + l <= zlen d) by lia. destruct (IH _ _ R Er) as (ps & t & H1 & H2 & H3 & H4).
    set (v := fread d p l). assert (Lv : zlen v = l) by (unfold v, fread; rewrite zlen_ztake, zlen_zdrop by lia; lia).
    exists (Packet data form v :: ps), t. split; [|split; [|split]].
    + constructor; auto. split; [unfold zlen in L16; cbn; lia|]. split; auto. cbn. rewrite Lv. auto.
    + cbn [flat_map]. unfold enc_packet at 1. cbn [pk_key pk_form pk_value]. rewrite Lv, H2, Hd. rewrite (fread_split d p l) by lia. fold v. rewrite Lv. rewrite <- !app_assoc. auto.
    + cbn [map shown report pk_key pk_form pk_value]. rewrite Lv, H3. rewrite <- L16, <- Ep. f_equal. unfold auid_bytes_be, auid_of_be. rewrite swap_swap; auto. unfold zlen in L16; lia.
    + destruct H4 as [->|(ps' & q & -> & Hq)]; auto. right. exists (Packet data form v :: ps'), q. auto.
  - destruct fuel; [discriminate|]. rewrite iter_kl_S in Er. destruct (off_max <=? p + l); [discriminate|]. rewrite fread_end in Er by lia. injection Er as <-.
    set (v := zdrop p d). set (t := zeros (l - zlen v)).
    assert (Lv : zlen v = zlen d - p) by (unfold v; rewrite zlen_zdrop by lia; lia).
    assert (Lt : zlen t = l - zlen v) by (unfold t; rewrite zlen_zeros; lia).
    assert (Lvt : zlen (v ++ t) = l) by (rewrite zlen_app; lia).
    exists [Packet data form (v ++ t)], t. split; [|split; [|split]].
    + constructor; auto. split; [unfold zlen in L16; cbn; lia|]. split; auto. cbn. rewrite Lvt. auto.
    + cbn [flat_map]. unfold enc_packet. cbn [pk_key pk_form pk_value]. rewrite Lvt, Hd, app_nil_r, <- !app_assoc. auto.
    + cbn [map shown report pk_key pk_form pk_value]. rewrite Lvt. rewrite <- L16, <- Ep. f_equal. unfold auid_bytes_be, auid_of_be. rewrite swap_swap; auto. unfold zlen in L16; lia.
    + right. exists [], (Packet data form (v ++ t)). split; auto. cbn. rewrite zlen_app. pose proof (zlen_nonneg _ v). lia.
Qed.

(** Two packets, one with a four byte length and a three byte value, one with a short length. *)
Definition key1 : list Z := [6;14;43;52;2;5;1;1;13;1;2;1;1;5;1;0].
Example C52_case :
  let ps := [Packet key1 (Some 4%nat) [1;2;3]; Packet key1 None [9]] in
  Forall packet_ok ps /\ map shown (fst (iter_kl 3 ([7;7] ++ flat_map enc_packet ps) 2)) = [(key1, 3, 23); (key1, 1, 43)].
Proof.
  split; [|reflexivity]. repeat constructor; cbn; try lia; unfold is_byte; lia.
Qed.

(** ** C53 *)

(** The items with a value come back in order, whatever surrounds the set; the file is left at the
    end of the set. *)
Theorem C53_items_partial : forall items pre post fuel, Forall item_ok items -> (length items < fuel)%nat ->
  iter_tags fuel (pre ++ flat_map enc_item items ++ post) (zlen pre) (zlen (flat_map enc_item items)) =
    (filter nonempty items, Ok (zlen pre + zlen (flat_map enc_item items))).
Proof.
  induction items as [|[t v] items IH]; intros pre post fuel H Hf; (destruct fuel as [|fuel]; [inversion Hf|]).
  - rewrite iter_tags_S. cbn [flat_map]. change (zlen (@nil Z)) with 0. cbn. rewrite Z.add_0_r. auto.
  - rewrite iter_tags_S. cbn [flat_map]. set (rest := flat_map enc_item items) in *. inversion H as [|? ? [H1 H2] Hr]; subst. cbn [fst snd] in *.
    change (enc_item (t, v)) with (be_bytes 2 t ++ be_bytes 2 (zlen v) ++ v). pose proof (zlen_nonneg _ v). pose proof (zlen_nonneg _ rest).
    assert (LL : zlen ((be_bytes 2 t ++ be_bytes 2 (zlen v) ++ v) ++ rest) = 4 + zlen v + zlen rest) by (rewrite !zlen_app, !zlen_be_bytes; lia).
    rewrite LL. replace (0 <? 4 + zlen v + zlen rest) with true by lia.
    assert (E : pre ++ ((be_bytes 2 t ++ be_bytes 2 (zlen v) ++ v) ++ rest) ++ post = pre ++ be_bytes 2 t ++ (be_bytes 2 (zlen v) ++ v ++ rest ++ post)) by (rewrite <- !app_assoc; auto).
    rewrite E. rewrite read_be_app by (cbn; lia). change (Z.of_nat 2) with 2.
    replace (zlen pre + 2) with (zlen (pre ++ be_bytes 2 t)) by (rewrite zlen_app, zlen_be_bytes; auto).
    rewrite app_assoc, read_be_app by (cbn; lia). change (Z.of_nat 2) with 2.
    replace (zlen (pre ++ be_bytes 2 t) + 2) with (zlen ((pre ++ be_bytes 2 t) ++ be_bytes 2 (zlen v))) by (rewrite zlen_app, zlen_be_bytes; auto).
    rewrite (app_assoc (pre ++ be_bytes 2 t)). rewrite fread_app. cbv zeta.
    replace (zlen ((pre ++ be_bytes 2 t) ++ be_bytes 2 (zlen v)) + zlen v) with (zlen (((pre ++ be_bytes 2 t) ++ be_bytes 2 (zlen v)) ++ v)) by (rewrite zlen_app; auto).
    rewrite (app_assoc ((pre ++ be_bytes 2 t) ++ be_bytes 2 (zlen v))).
    replace (4 + zlen v + zlen rest - (4 + zlen v)) with (zlen rest) by lia.
    unfold rest. rewrite IH by (auto; cbn in Hf; lia). fold rest. cbn [filter]. change (nonempty (t, v)) with (negb (zlen v =? 0)).
    assert (EE : zlen (((pre ++ be_bytes 2 t) ++ be_bytes 2 (zlen v)) ++ v) + zlen rest = zlen pre + (4 + zlen v + zlen rest)) by (rewrite !zlen_app, !zlen_be_bytes; lia).
    rewrite EE. destruct (zlen v =? 0); auto.
Qed.

(** On every byte string and every announced length the parser ends. *)
Theorem C53_terminates_partial : forall d, bytes d -> forall fuel pos l, 0 <= pos -> l < Z.of_nat fuel -> (0 < fuel)%nat ->
  snd (iter_tags fuel d pos l) <> Err OutOfFuel.
Proof.
  intros d Hb. induction fuel as [|fuel IH]; intros pos l Hp Hl H0; [inversion H0|].
  rewrite iter_tags_S. destruct (0 <? l) eqn:E; [|discriminate].
  destruct (read_be 2 d pos) as [[tag p1]|e] eqn:E1; [|cbn; unfold read_be in E1; destruct (_ =? _) in E1; congruence].
  apply read_be_inv in E1; auto. destruct E1 as (-> & _).
  destruct (read_be 2 d _) as [[size p2]|e] eqn:E2; [|cbn; unfold read_be in E2; destruct (_ =? _) in E2; congruence].
  apply read_be_inv in E2; auto; [|lia]. destruct E2 as (-> & _ & Hs & _).
  cbv zeta. match goal with |- context [iter_tags fuel d ?p ?k] => specialize (IH p k); destruct (iter_tags fuel d p k) as [ys r] end.
  cbn [snd] in *. pose proof (zlen_nonneg _ (fread d (pos + Z.of_nat 2 + Z.of_nat 2) size)). assert (r <> Err OutOfFuel) by (apply IH; lia). destruct (size =? 0); auto.
Qed.

(** If the parser ends at the announced end of a set that is not at the very end of the file, then the
    set is a sequence of items and the parser reported those with a value. (At the very end of the file
    an item that announces too much is silently cut short.) *)
Theorem C53_decode_partial : forall d, bytes d -> forall fuel pos l ys, 0 <= pos -> 0 <= l -> pos + l < zlen d ->
  iter_tags fuel d pos l = (ys, Ok (pos + l)) ->
  exists items, Forall item_ok items /\ flat_map enc_item items = slice pos (pos + l) d /\ ys = filter nonempty items.
Proof.
  intros d Hb. induction fuel as [|fuel IH]; intros pos l ys Hp Hl Hd H; [discriminate|].
  rewrite iter_tags_S in H. destruct (0 <? l) eqn:E.
  - destruct (read_be 2 d pos) as [[tag p1]|e] eqn:E1; [|discriminate].
    apply read_be_inv in E1; auto. destruct E1 as (-> & Hq1 & Ht & Ed1).
    destruct (read_be 2 d _) as [[size p2]|e] eqn:E2; [|discriminate].
    apply read_be_inv in E2; auto; [|lia]. destruct E2 as (-> & Hq2 & Hs & Ed2). change (Z.of_nat 2) with 2 in *. change (256 ^ 2) with 65536 in *.
    replace (pos + 2 + 2) with (pos + 4) in * by lia. cbv zeta in H. set (v := fread d (pos + 4) size) in *.
    assert (Lv : zlen v = Z.min size (zlen d - (pos + 4))) by (unfold v, fread; rewrite zlen_ztake, zlen_zdrop by lia; lia).
    destruct (iter_tags fuel d (pos + 4 + zlen v) (l - (4 + size))) as [ys' r] eqn:Er.
    assert (Er' : r = Ok (pos + l)) by (destruct (size =? 0); congruence). subst r.
    assert (Hfit : 4 + size <= l).
    { destruct (Z.le_gt_cases (4 + size) l); auto. exfalso. destruct fuel; [discriminate|]. rewrite iter_tags_S in Er. replace (0 <? l - (4 + size)) with false in Er by lia. injection Er as <- Er. lia. }
    assert (Lv' : zlen v = size) by lia. rewrite Lv' in Er.
    replace (pos + l) with (pos + 4 + size + (l - (4 + size))) in Er by lia.
    apply IH in Er; try lia. destruct Er as (items & I1 & I2 & I3). exists ((tag, v) :: items). split; [|split].
    + constructor; auto. split; cbn; lia.
    + cbn [flat_map]. rewrite I2. unfold enc_item. cbn [fst snd]. rewrite Lv'. unfold slice.
      replace (pos + 4 + size + (l - (4 + size)) - (pos + 4 + size)) with (l - (4 + size)) by lia. replace (pos + l - pos) with l by lia.
      rewrite Ed1, Ed2. replace (zdrop (pos + 4) d) with (v ++ zdrop (pos + 4 + size) d) by (symmetry; rewrite <- Lv'; apply fread_split; lia).
      set (w := zdrop (pos + 4 + size) d). replace (be_bytes 2 tag ++ be_bytes 2 size ++ v ++ w) with ((be_bytes 2 tag ++ be_bytes 2 size ++ v) ++ w) by (rewrite <- !app_assoc; auto).
      assert (LL : zlen (be_bytes 2 tag ++ be_bytes 2 size ++ v) = 4 + size) by (rewrite !zlen_app, !zlen_be_bytes; lia).
      rewrite ztake_app2 by lia. rewrite LL. auto.
    + cbn [filter]. change (nonempty (tag, v)) with (negb (zlen v =? 0)). rewrite Lv'. subst ys'. destruct (size =? 0); cbn; congruence.
  - injection H as <- H. exists []. split; auto. split; auto. cbn. assert (l = 0) by lia. subst l. unfold slice. rewrite ztake_0 by lia. auto.
Qed.

(** Full statement: the parser yields exactly the written items. It fails for an item whose value is
    empty, which is skipped. *)
Theorem C53_empty_refuted : exists items, Forall item_ok items /\
  fst (iter_tags 10 (flat_map enc_item items) 0 (zlen (flat_map enc_item items))) <> items.
Proof.
  exists [(1, [5]); (2, [])]. split; [repeat constructor; cbn; lia|]. vm_compute. discriminate.
Qed.

(** A value that announces more bytes than the set has left is read past the end of the set. *)
Theorem C53_overrun_refuted : exists d l, bytes d /\ 0 <= l <= zlen d /\
  exists t v, fst (iter_tags 10 d 0 l) = [(t, v)] /\ l < 4 + zlen v.
Proof.
  exists ([0; 1; 0; 4; 1; 2] ++ [3; 4]), 6. split; [|split; [cbn; lia|]].
  - repeat constructor; unfold is_byte; lia.
  - exists 1, [1; 2; 3; 4]. split; [reflexivity|cbn; lia].
Qed.

(** The primer pack: each written tag maps to its identifier, the last one for a tag given twice. *)
Definition enc_prim (x : Z * list Z) : list Z := be_bytes 2 (fst x) ++ snd x.
Definition prim_ok (x : Z * list Z) : Prop := 0 <= fst x < 65536 /\ length (snd x) = 16%nat.
Lemma primer_items_ok : forall items pre post acc, Forall prim_ok items ->
  primer_items (length items) (pre ++ flat_map enc_prim items ++ post) (zlen pre) acc =
    Ok (rev (map (fun x => (fst x, auid_of_be (snd x))) items) ++ acc).
Proof.
  induction items as [|[t u] items IH]; intros pre post acc H; [reflexivity|]. inversion H as [|? ? [H1 H2] Hr]; subst. cbn [fst snd] in *.
  cbn [length primer_items flat_map]. change (enc_prim (t, u)) with (be_bytes 2 t ++ u).
  replace (pre ++ ((be_bytes 2 t ++ u) ++ flat_map enc_prim items) ++ post) with (pre ++ be_bytes 2 t ++ (u ++ flat_map enc_prim items ++ post)) by (rewrite <- !app_assoc; auto).
  rewrite read_be_app by (cbn; lia). cbn [bind]. change (Z.of_nat 2) with 2.
  assert (Lu : zlen u = 16) by (unfold zlen; lia).
  replace (zlen pre + 2) with (zlen (pre ++ be_bytes 2 t)) by (rewrite zlen_app, zlen_be_bytes; auto).
  rewrite app_assoc, (fread_at _ u) by auto. cbv zeta. rewrite <- zlen_app. rewrite (app_assoc (pre ++ be_bytes 2 t)). rewrite IH by auto.
  cbn [map rev fst snd]. rewrite <- app_assoc. auto.
Qed.
Fixpoint last_of (items : list (Z * list Z)) (k : Z) : option (list Z) :=
  match items with
  | [] => None
  | (k', v) :: r => match last_of r k with Some w => Some w | None => if k =? k' then Some v else None end
  end.
Lemma tag_get_app : forall a b k, tag_get (a ++ b) k = match tag_get a k with Some v => Some v | None => tag_get b k end.
Proof. induction a as [|[x y] a IH]; intros; cbn; auto. destruct (k =? x); auto. Qed.
Theorem C53_primer_partial : forall items pre post, Forall prim_ok items -> zlen items <= 65536 ->
  exists t, read_primer (pre ++ be_bytes 4 (zlen items) ++ be_bytes 4 18 ++ flat_map enc_prim items ++ post) (zlen pre) = Ok (Some t) /\
    forall k, option_map auid_bytes_be (tag_get t k) = last_of items k.
Proof.
  intros items pre post H Hn. pose proof (zlen_nonneg _ items). eexists. split.
  - unfold read_primer. rewrite read_be_app by (cbn; lia). cbn [bind]. change (Z.of_nat 4) with 4.
    replace (zlen pre + 4) with (zlen (pre ++ be_bytes 4 (zlen items))) by (rewrite zlen_app, zlen_be_bytes; auto).
    rewrite app_assoc, read_be_app by (cbn; lia). cbn [bind]. change (negb (18 =? 18)) with false. cbn iota.
    replace (65536 <? zlen items) with false by lia. change (Z.of_nat 4) with 4.
    replace (zlen (pre ++ be_bytes 4 (zlen items)) + 4) with (zlen ((pre ++ be_bytes 4 (zlen items)) ++ be_bytes 4 18)) by (rewrite zlen_app, zlen_be_bytes; auto).
    rewrite (app_assoc (pre ++ be_bytes 4 (zlen items))). replace (Z.to_nat (zlen items)) with (length items) by (unfold zlen; lia).
    rewrite primer_items_ok by auto. cbn [bind]. reflexivity.
  - intros k. rewrite app_nil_r. clear - H. induction items as [|[t u] items IH]; [reflexivity|]. inversion H as [|? ? [H1 H2] Hr]; subst. cbn [map rev fst snd] in *.
    rewrite tag_get_app. cbn [last_of]. rewrite <- IH by auto. destruct (tag_get (rev _) k); auto. cbn. destruct (k =? t); auto. cbn.
    unfold auid_bytes_be, auid_of_be. rewrite swap_swap; auto.
Qed.

Example C53_case : Forall item_ok [(15370, [1;2;3]); (258, [])] /\
  iter_tags 3 ([9] ++ flat_map enc_item [(15370, [1;2;3]); (258, [])] ++ [8]) 1 11 = ([(15370, [1;2;3])], Ok 12).
Proof. split; [repeat constructor; cbn; lia|reflexivity]. Qed.

(** ** C54 *)

(** r is the smallest multiple of kag not below pos *)
Definition rounded (pos kag r : Z) : Prop :=
  (exists k, r = k * kag) /\ pos <= r /\ forall k, pos <= k * kag -> r <= k * kag.

(** Full statement: [round_to_kag pos kag = Ok r -> rounded pos kag r]. It fails as soon as the
    position is not a multiple: the grid size is added to the position itself. *)
Theorem C54_round_refuted : exists pos kag r, 0 <= pos /\ 0 < kag /\ round_to_kag pos kag = Ok r /\ ~ rounded pos kag r.
Proof.
  exists 1000, 512, 1512. split; [lia|]. split; [lia|]. split; [reflexivity|]. intros ((k & Hk) & _). lia.
Qed.

(** What holds: positions on the grid are kept; for any other position the result is not on the grid and
    exceeds the right one by the distance of the position from the previous grid point. *)
Theorem C54_round_partial : forall pos kag, 0 <= pos -> 0 < kag -> exists r, round_to_kag pos kag = Ok r /\
  (rounded pos kag r <-> exists k, pos = k * kag) /\
  forall g, rounded pos kag g -> r = g + pos mod kag.
Proof.
  intros pos kag Hp Hk. unfold round_to_kag. replace (kag =? 0) with false by lia.
  pose proof (Z.div_mod pos kag ltac:(lia)) as D. pose proof (Z.mod_pos_bound pos kag Hk) as B.
  set (q := pos / kag) in *. set (m := pos mod kag) in *.
  assert (C : q * kag = kag * q) by lia.
  destruct (q * kag =? pos) eqn:E.
  - apply Z.eqb_eq in E. assert (m = 0) by lia. exists pos. split; auto. split.
    + split; [intros; exists q; auto|]. intros _. split; [exists q; auto|]. split; [lia|]. intros; lia.
    + intros g (Hg1 & Hg2 & Hg3). specialize (Hg3 q). lia.
  - apply Z.eqb_neq in E. exists (pos + kag). split; auto. split.
    + split; [|intros (k & Hk')]. 2:{ exfalso. assert (q = k) by (unfold q; rewrite Hk'; apply Z.div_mul; lia). subst k. lia. }
      intros (_ & _ & H3). exfalso. specialize (H3 (q + 1)). lia.
    + intros g ((k & ->) & Hg2 & Hg3). specialize (Hg3 (q + 1)). assert (E1 : (q + 1) * kag = q * kag + kag) by ring. rewrite E1 in Hg3.
      assert (k = q + 1). { assert (q < k) by nia. assert (k <= q + 1) by nia. lia. } subst k. lia.
Qed.

(** A grid size of 0, which the file format uses for "unknown" in old files, is a division by zero. *)
Theorem C54_zero_partial : forall pos, round_to_kag pos 0 = Err ZeroDivision.
Proof. reflexivity. Qed.

(** So the end of the header partition is put too far away. *)
Definition hdr : list Z :=
  be_bytes 2 1 ++ be_bytes 2 2 ++ be_bytes 4 512 ++ be_bytes 8 0 ++ be_bytes 8 0 ++ be_bytes 8 0 ++
  be_bytes 8 9000 ++ be_bytes 8 0 ++ be_bytes 4 0 ++ be_bytes 8 0 ++ be_bytes 4 0 ++ key1.
Theorem C54_header_refuted : exists op size, read_header hdr 0 120 = Ok (op, size) /\
  rounded 120 512 512 /\ rounded 9000 512 9216 /\ rounded 0 512 0 /\ size = 632 + 9512 /\ size <> 512 + 9216 + 0.
Proof.
  assert (R : forall pos k, pos <= k * 512 -> (k - 1) * 512 < pos -> rounded pos 512 (k * 512)).
  { intros pos k H1 H2. split; [exists k; auto|]. split; auto. intros j Hj. assert (k <= j) by lia. lia. }
  eexists _, _. split; [vm_compute; reflexivity|]. split; [apply (R 120 1); lia|]. split; [apply (R 9000 18); lia|].
  split; [apply (R 0 0); lia|]. split; [reflexivity|discriminate].
Qed.

(** ** C55 *)

(** Every frame size is a positive multiple of 4096, at least 8192; unknown compression ids raise. *)
Theorem C55_frame_size_partial : forall cid w h, 
  match dnx_frame_size cid w h with
  | Ok s => 8192 <= s /\ s mod 4096 = 0 /\ (1235 <= cid <= 1274)
  | Err e => e = KeyError /\ lookup dnxhd_frame_sizes cid = None /\ lookup dnxhr_ratio cid = None
  end.
Proof.
  intros. unfold dnx_frame_size. destruct (lookup dnxhd_frame_sizes cid) as [s|] eqn:E.
  - cbn in E. repeat match type of E with (if ?a =? ?b then _ else _) = _ => destruct (Z.eqb_spec a b); [injection E as <-; subst; split; [lia|split; [reflexivity|lia]]|] end. discriminate.
  - destruct (lookup dnxhr_ratio cid) as [[r0 r1]|] eqn:F; [|auto].
    split; [lia|]. split.
    + match goal with |- (Z.max ?a _) mod _ = _ => destruct (Z.max_spec a 8192) as [[_ ->]|[_ ->]] end; [reflexivity|]. apply Z.mod_mul; lia.
    + cbn in F. repeat match type of F with (if ?a =? ?b then _ else _) = _ => destruct (Z.eqb_spec a b); [lia|] end. discriminate.
Qed.

(** The size a header announces *)
Definition announces (h : list Z) (s : Z) : Prop := exists cid w ht bd i,
  read_dnx_frame_header (ztake 640 h) = Ok (cid, w, ht, bd, i) /\ dnx_frame_size cid w ht = Ok s.

Lemma iter_dnx_S : forall n d pos, iter_dnx (S n) d pos =
    let h := fread d pos 640 in
    if negb (zlen h =? 640) then ([], Ok tt) else
    match read_dnx_frame_header h with
    | Err e => ([], Err e)
    | Ok (cid, width, height, _, _) =>
      match dnx_frame_size cid width height with
      | Err e => ([], Err e)
      | Ok fs =>
        let body := fread d (pos + 640) (fs - 640) in
        let '(ys, r) := iter_dnx n d (pos + 640 + zlen body) in ((h ++ body) :: ys, r)
      end
    end.
Proof. reflexivity. Qed.

Lemma frame_size_min : forall cid w h s, dnx_frame_size cid w h = Ok s -> 8192 <= s.
Proof. intros. pose proof (C55_frame_size_partial cid w h) as X. rewrite H in X. lia. Qed.

(** Whole frames come back as they were, followed or not by fewer than 640 further bytes. *)
Theorem C55_frames_partial : forall fs pre tail fuel, Forall (fun f => announces f (zlen f)) fs -> zlen tail < 640 -> (length fs < fuel)%nat ->
  iter_dnx fuel (pre ++ concat fs ++ tail) (zlen pre) = (fs, Ok tt).
Proof.
  induction fs as [|f fs IH]; intros pre tail fuel H Ht Hf; (destruct fuel as [|fuel]; [inversion Hf|]).
  - rewrite iter_dnx_S. cbn [concat app]. cbv zeta. unfold fread. rewrite zdrop_app_exact.
    rewrite zlen_ztake by lia. replace (Z.min 640 (zlen tail) =? 640) with false by lia. auto.
  - inversion H as [|? ? (cid & w & ht & bd & i & Hh & Hsz) Hr]; subst. pose proof (frame_size_min _ _ _ _ Hsz) as Hm.
    rewrite iter_dnx_S. cbn [concat]. rewrite <- app_assoc. cbv zeta.
    assert (E : f = ztake 640 f ++ zdrop 640 f) by (symmetry; apply ztake_zdrop).
    set (a := ztake 640 f) in *. set (b := zdrop 640 f) in *.
    assert (La : zlen a = 640) by (unfold a; rewrite zlen_ztake; lia).
    assert (Lb : zlen b = zlen f - 640) by (unfold b; rewrite zlen_zdrop; lia).
    assert (Ed : pre ++ f ++ concat fs ++ tail = pre ++ a ++ (b ++ concat fs ++ tail)) by (rewrite E at 1; rewrite <- app_assoc; auto).
    rewrite Ed. rewrite (fread_at _ a) by auto. rewrite La, Z.eqb_refl. cbn [negb]. rewrite Hh, Hsz.
    replace (zlen pre + 640) with (zlen (pre ++ a)) by (rewrite zlen_app; lia).
    rewrite app_assoc, (fread_at _ b) by auto. rewrite <- zlen_app. rewrite (app_assoc (pre ++ a)). rewrite IH by (auto; cbn in Hf; lia). rewrite <- E. auto.
Qed.

(** On every byte string the splitting ends and gives back a prefix of the input; every frame but the
    last has the size its header announces, the last is at most that long, and when no header was
    refused fewer than 640 bytes are left over. *)
Theorem C55_any_partial : forall d fuel pos ys r, 0 <= pos <= zlen d -> zlen d - pos < Z.of_nat fuel ->
  iter_dnx fuel d pos = (ys, r) ->
  r <> Err OutOfFuel /\ (exists rest, zdrop pos d = concat ys ++ rest /\ (r = Ok tt -> zlen rest < 640) /\
    (forall a f b, ys = a ++ f :: b -> exists s, announces f s /\ zlen f <= s /\ (b <> [] \/ rest <> [] -> zlen f = s))).
Proof.
  intros d fuel. induction fuel as [|fuel IH]; intros pos ys r Hp Hf H; [lia|].
  rewrite iter_dnx_S in H. cbv zeta in H. set (h := fread d pos 640) in *.
  destruct (zlen h =? 640) eqn:E; cbn [negb] in H.
  - apply Z.eqb_eq in E. destruct (read_dnx_frame_header h) as [[[[[cid w] ht] bd] i]|e] eqn:Eh.
    + destruct (dnx_frame_size cid w ht) as [s|e] eqn:Es.
      * pose proof (frame_size_min _ _ _ _ Es) as Hm. set (body := fread d (pos + 640) (s - 640)) in *.
        destruct (iter_dnx fuel d (pos + 640 + zlen body)) as [ys' r'] eqn:Er. injection H as <- <-.
        assert (Lh : zlen h = Z.min 640 (zlen d - pos)) by (unfold h, fread; rewrite zlen_ztake, zlen_zdrop; lia).
        assert (Lb : zlen body = Z.min (s - 640) (zlen d - (pos + 640))) by (unfold body, fread; rewrite zlen_ztake, zlen_zdrop; lia).
        apply IH in Er; [|lia|lia]. destruct Er as (H1 & rest & H2 & H3 & H4). split; auto. exists rest. split; [|split; auto].
        { cbn [concat]. rewrite <- !app_assoc, <- H2. rewrite (fread_split d pos 640) by lia. fold h. rewrite E. f_equal. apply fread_split; lia. }
        intros a f b Hab. destruct a as [|x a]; cbn in Hab; injection Hab as <- Hab.
        -- exists s. split. { exists cid, w, ht, bd, i. split; auto. rewrite <- E, ztake_app_exact. auto. }
           rewrite zlen_app. split; [lia|]. intros Hne.
           destruct (Z.le_gt_cases (s - 640) (zlen d - (pos + 640))); [lia|]. exfalso.
           assert (zlen (concat ys' ++ rest) = 0). { rewrite <- H2, zlen_zdrop; lia. } rewrite zlen_app in *. pose proof (zlen_nonneg _ (concat ys')). pose proof (zlen_nonneg _ rest).
           destruct Hne as [Hne|Hne]; [|destruct rest; [congruence|rewrite zlen_cons in *; pose proof (zlen_nonneg _ rest); lia]].
           subst b. destruct ys' as [|f' ys']; [congruence|]. destruct (H4 [] f' ys' eq_refl) as (s' & (c' & w' & t' & b' & i' & A & _) & _).
           cbn [concat] in *. rewrite zlen_app in *. pose proof (zlen_nonneg _ (concat ys')). pose proof (zlen_nonneg _ f'). unfold read_dnx_frame_header in A.
           destruct (640 <=? zlen (ztake 640 f')) eqn:Q; [|discriminate]. rewrite zlen_ztake in Q; lia.
        -- destruct (H4 a f b Hab) as (s' & A & B & C). exists s'. split; [exact A|]. auto.
      * injection H as <- <-. split. { intros C. injection C as ->. pose proof (C55_frame_size_partial cid w ht) as X. rewrite Es in X. destruct X; discriminate. }
        exists (zdrop pos d). split; auto. split; [discriminate|]. intros a f b C. destruct a; discriminate.
    + injection H as <- <-. split.
      { intros C. injection C as ->. unfold read_dnx_frame_header in Eh. repeat (match type of Eh with (if ?b then _ else _) = _ => destruct b; try discriminate end).
        cbn [bind] in Eh. repeat (match type of Eh with context [if ?b then Ok _ else _] => destruct b; cbn [bind] in Eh; try discriminate end). }
      exists (zdrop pos d). split; auto. split; [discriminate|]. intros a f b C. destruct a; discriminate.
  - injection H as <- <-. split; [discriminate|]. exists (zdrop pos d). split; auto. split.
    + intros _. apply Z.eqb_neq in E. unfold h, fread in E. rewrite zlen_ztake in E by lia. lia.
    + intros a f b C. destruct a; discriminate.
Qed.

(** Which prefixes are accepted, byte by byte: the DNxHD one, or a DNxHR one whose data offset is a
    multiple of 4 between 640 and 8560. The low byte of the six does not matter. *)
Theorem C55_prefix_partial : forall b0 b1 b2 b3 b4 b5, bytes [b0; b1; b2; b3; b4; b5] ->
  valid_dnx_prefix (Z.land (int_from_bytes_be [b0; b1; b2; b3; b4; b5]) 281474976710400) = true <->
  b0 = 0 /\ b1 = 0 /\ ((b2 = 2 /\ b3 = 128 /\ b4 = 1) \/ (b4 = 3 /\ b3 mod 4 = 0 /\ 640 <= b2 * 256 + b3 <= 8560)).
Proof.
  intros b0 b1 b2 b3 b4 b5 H. repeat match goal with H : bytes (_ :: _) |- _ => inversion H as [|? ? ? ?]; subst; clear H | H : Forall _ (_ :: _) |- _ => inversion H; subst; clear H end.
  unfold is_byte in *. unfold int_from_bytes_be. rewrite int_from_be_val by (cbn; lia). unfold be_val. cbn [rev app le_val].
  set (v := b5 + 256 * (b4 + 256 * (b3 + 256 * (b2 + 256 * (b1 + 256 * (b0 + 256 * 0)))))).
  assert (M : Z.land v 281474976710400 = v - b5).
  { replace 281474976710400 with (Z.shiftl (Z.ones 40) 8) by reflexivity.
    apply Z.bits_inj'. intros n Hn. rewrite Z.land_spec, Z.shiftl_spec by auto.
    replace (v - b5) with (Z.shiftl (v / 256) 8).
    2:{ rewrite Z.shiftl_mul_pow2 by lia. change (2 ^ 8) with 256. unfold v. lia. }
    rewrite Z.shiftl_spec by auto. destruct (Z.ltb_spec n 8).
    - rewrite !(Z.testbit_neg_r _ (n - 8)) by lia. apply andb_false_r.
    - change (v / 256) with (v / 2 ^ 8). rewrite Z.div_pow2_bits by lia. replace (n - 8 + 8) with n by lia.
      destruct (Z.ltb_spec (n - 8) 40).
      + rewrite Z.ones_spec_low by lia. apply andb_true_r.
      + rewrite Z.ones_spec_high by lia. rewrite andb_false_r. symmetry.
        apply Z.bits_above_log2; [unfold v; lia|]. destruct (Z.eq_dec v 0) as [->|]; [cbn; lia|]. apply Z.log2_lt_pow2; [unfold v in *; lia|].
        apply Z.lt_le_trans with (2 ^ 48); [unfold v; change (2 ^ 48) with 281474976710656; lia|]. apply Z.pow_le_mono_r; lia. }
  rewrite M. unfold valid_dnx_prefix. set (w := v - b5).
  assert (S16 : Z.shiftr w 16 = b3 + 256 * (b2 + 256 * (b1 + 256 * b0))).
  { rewrite Z.shiftr_div_pow2 by lia. change (2 ^ 16) with 65536. unfold w, v. lia. }
  assert (A : Z.land w 281470681808895 = (b1 + 256 * b0) * 4294967296 + b4 * 256).
  { change 281470681808895 with (Z.lor (Z.shiftl (Z.ones 16) 32) (Z.ones 16)). rewrite Z.land_lor_distr_r.
    replace (Z.land w (Z.ones 16)) with (b4 * 256) by (rewrite Z.land_ones by lia; change (2 ^ 16) with 65536; unfold w, v; lia).
    assert (Hi : Z.land w (Z.shiftl (Z.ones 16) 32) = Z.shiftl (b1 + 256 * b0) 32).
    { replace (b1 + 256 * b0) with (Z.land (Z.shiftr w 32) (Z.ones 16)).
      2:{ rewrite Z.land_ones, Z.shiftr_div_pow2 by lia. change (2 ^ 32) with 4294967296. change (2 ^ 16) with 65536. unfold w, v. lia. }
      apply Z.bits_inj'. intros n Hn. rewrite Z.land_spec, !Z.shiftl_spec, Z.land_spec by auto. destruct (Z.ltb_spec n 32).
      - rewrite !(Z.testbit_neg_r _ (n - 32)) by lia. rewrite andb_false_r. auto.
      - rewrite Z.shiftr_spec by lia. replace (n - 32 + 32) with n by lia. auto. }
    rewrite Hi.
    assert (L0 : Z.land (Z.shiftl (b1 + 256 * b0) 32) (b4 * 256) = 0).
    { apply Z.bits_inj'. intros n Hn. rewrite Z.land_spec, Z.shiftl_spec, Z.bits_0 by auto. destruct (Z.ltb_spec n 32).
      - rewrite Z.testbit_neg_r by lia. auto.
      - replace (Z.testbit (b4 * 256) n) with false; [apply andb_false_r|]. symmetry. apply Z.bits_above_log2; [lia|].
        destruct (Z.eq_dec b4 0) as [->|]; [cbn; lia|]. apply Z.log2_lt_pow2; [lia|]. apply Z.lt_le_trans with (2 ^ 32); [change (2 ^ 32) with 4294967296; lia|]. apply Z.pow_le_mono_r; lia. }
    rewrite <- Z.lxor_lor by auto. rewrite <- Z.add_nocarry_lxor by auto. rewrite Z.shiftl_mul_pow2 by lia. reflexivity. }
  rewrite S16, A. assert (L3 : forall x, Z.land x 3 = x mod 4) by (intros; change 3 with (Z.ones 2); rewrite Z.land_ones by lia; auto). rewrite L3.
  assert (Hw : w = 256 * (b4 + 256 * (b3 + 256 * (b2 + 256 * (b1 + 256 * b0))))) by (unfold w, v; lia).
  destruct (w =? 41943296) eqn:EW.
  - split; auto. intros _. apply Z.eqb_eq in EW. rewrite Hw in EW. assert (b0 = 0) by lia. assert (b1 = 0) by lia. split; auto. split; auto. left. lia.
  - apply Z.eqb_neq in EW. rewrite !andb_true_iff, Z.eqb_eq, !Z.leb_le, Z.eqb_eq. split.
    + intros (((X1 & X2) & X3) & X4). assert (b0 = 0) by lia. assert (b1 = 0) by lia. split; auto. split; auto. right. subst b0 b1.
      assert (b4 = 3) by lia. split; auto. split; [|lia]. lia.
    + intros (-> & -> & [(-> & -> & ->)|(-> & X1 & X2)]); [rewrite Hw in EW; lia|]. repeat split; lia.
Qed.

(** Full statement: each frame has the size its header announces. The last frame of a stream that stops
    in the middle of it is yielded too, short. *)
Definition dnx_head : list Z :=
  [0;0;2;128;1;0] ++ zeros 18 ++ [4;56;7;128] ++ zeros 5 ++ [32] ++ zeros 6 ++ [0;0;4;229] ++ zeros 596.
Theorem C55_truncated_refuted : exists d f s, fst (iter_dnx 3 d 0) = [f] /\ snd (iter_dnx 3 d 0) = Ok tt /\ announces f s /\ zlen f <> s.
Proof.
  exists dnx_head, dnx_head, 188416. assert (H : read_dnx_frame_header dnx_head = Ok (1253, 1920, 1080, 8, false)) by reflexivity.
  assert (E : iter_dnx 3 dnx_head 0 = ([dnx_head], Ok tt)) by reflexivity.
  rewrite E. split; [reflexivity|]. split; [reflexivity|]. split.
  - exists 1253, 1920, 1080, 8, false. split; [exact H|reflexivity].
  - intros C. vm_compute in C. discriminate.
Qed.

Example C55_case : announces (dnx_head ++ zeros (188416 - 640)) (zlen (dnx_head ++ zeros (188416 - 640))).
Proof.
  exists 1253, 1920, 1080, 8, false. rewrite zlen_app, zlen_zeros by lia. split; [|reflexivity].
  replace 640 with (zlen dnx_head) by reflexivity. rewrite ztake_app_exact. reflexivity.
Qed.

(** ** C56 *)

(** The loop finds the first wanted chunk behind any chunks that are not wanted (each padded to an even
    length), and returns it with the container header. *)
Definition enc_chunk (sz : Z -> list Z) (c : list Z * list Z) : list Z :=
  fst c ++ sz (zlen (snd c)) ++ snd c ++ pad (snd c).
Lemma chunk_found : forall wanted val sz, (forall n, 0 <= n < 2 ^ 32 -> length (sz n) = 4%nat /\ val (sz n) = n) ->
  forall cs pre id body post head fuel,
  Forall (fun c => length (fst c) = 4%nat /\ zlen (snd c) < 2 ^ 32 /\ wanted (fst c) = false) cs ->
  length id = 4%nat -> wanted id = true -> zlen body < 2 ^ 32 -> (length cs < fuel)%nat ->
  chunk_loop fuel wanted val (pre ++ flat_map (enc_chunk sz) cs ++ id ++ sz (zlen body) ++ body ++ post) head (zlen pre) =
    Ok (Some (head ++ id ++ sz (zlen body) ++ body)).
Proof.
  intros wanted val sz Hsz. induction cs as [|[i v] cs IH]; intros pre id body post head fuel H Hi Hw Hb Hf; (destruct fuel as [|fuel]; [inversion Hf|]); rewrite chunk_loop_S; cbv zeta.
  - cbn [flat_map app]. pose proof (zlen_nonneg _ body). destruct (Hsz (zlen body)) as [S1 S2]; [lia|]. set (s := sz (zlen body)) in *.
    assert (Li : zlen id = 4) by (unfold zlen; lia). assert (Ls : zlen s = 4) by (unfold zlen; lia).
    assert (R1 : fread (pre ++ id ++ s ++ body ++ post) (zlen pre) 4 = id) by (apply fread_at; lia).
    rewrite R1, <- zlen_app. clear R1. rewrite (app_assoc pre id).
    assert (R2 : fread ((pre ++ id) ++ s ++ body ++ post) (zlen (pre ++ id)) 4 = s) by (apply fread_at; lia).
    rewrite R2, <- zlen_app, S2. clear R2. rewrite (app_assoc (pre ++ id) s), fread_app.
    rewrite Li, Ls. cbn [Z.ltb orb]. rewrite Hw. auto.
  - inversion H as [|? ? (H1 & H2 & H3) Hr]; subst. cbn [flat_map fst snd] in *. change (enc_chunk sz (i, v)) with (i ++ sz (zlen v) ++ v ++ pad v).
    pose proof (zlen_nonneg _ v). destruct (Hsz (zlen v)) as [S1 S2]; [lia|]. set (s := sz (zlen v)) in *.
    assert (Li : zlen i = 4) by (unfold zlen; lia). assert (Ls : zlen s = 4) by (unfold zlen; lia).
    set (rest := id ++ sz (zlen body) ++ body ++ post).
    replace (pre ++ ((i ++ s ++ v ++ pad v) ++ flat_map (enc_chunk sz) cs) ++ rest) with (pre ++ i ++ (s ++ (v ++ pad v) ++ flat_map (enc_chunk sz) cs ++ rest)) by (rewrite <- !app_assoc; auto).
    set (r2 := (v ++ pad v) ++ flat_map (enc_chunk sz) cs ++ rest).
    assert (R1 : fread (pre ++ i ++ s ++ r2) (zlen pre) 4 = i) by (apply fread_at; lia).
    rewrite R1, <- zlen_app. clear R1. rewrite (app_assoc pre i).
    assert (R2 : fread ((pre ++ i) ++ s ++ r2) (zlen (pre ++ i)) 4 = s) by (apply fread_at; lia).
    rewrite R2, <- zlen_app, S2. clear R2. rewrite (app_assoc (pre ++ i) s).
    rewrite Li, Ls. cbn [Z.ltb orb]. rewrite H3. cbn [negb].
    assert (Lp : (if zlen v mod 2 =? 1 then zlen v + 1 else zlen v) = zlen (v ++ pad v)).
    { rewrite zlen_app. unfold pad. destruct (zlen v mod 2 =? 1); cbn; lia. }
    rewrite Lp, <- zlen_app. unfold r2. rewrite (app_assoc ((pre ++ i) ++ s)). unfold rest. apply IH; auto. cbn in Hf; lia.
Qed.

(** The loop ends on every byte string. *)
Lemma chunk_terminates : forall wanted val d head, (forall s, zlen s = 4 -> bytes s -> 0 <= val s) -> bytes d -> forall fuel pos, 0 <= pos -> zlen d - pos < Z.of_nat fuel -> (0 < fuel)%nat ->
  exists r, chunk_loop fuel wanted val d head pos = Ok r.
Proof.
  intros wanted val d head Hv Hb. induction fuel as [|fuel IH]; intros pos Hp Hf H0; [inversion H0|]. rewrite chunk_loop_S. cbv zeta.
  set (id := fread d pos 4). set (s := fread d (pos + zlen id) 4). pose proof (zlen_nonneg _ id).
  assert (Li : zlen id = Z.min 4 (Z.max 0 (zlen d - pos))) by (unfold id, fread; rewrite zlen_ztake, zlen_zdrop; lia).
  assert (Ls : zlen s = Z.min 4 (Z.max 0 (zlen d - (pos + zlen id)))) by (unfold s, fread; rewrite zlen_ztake, zlen_zdrop; lia).
  destruct ((zlen s <? 4) || (zlen id <? 4)) eqn:E; [eauto|]. apply orb_false_iff in E. destruct E.
  destruct (negb (wanted id)); [|eauto]. assert (Hs : 0 <= val s) by (apply Hv; [lia|apply Forall_ztake, Forall_zdrop; auto]).
  apply IH; [|destruct (val s mod 2 =? 1); lia|]; destruct (val s mod 2 =? 1); lia.
Qed.

Definition wave_id (id : list Z) : Prop := ztake 3 id = c_fmt.

Theorem C56_wave : forall size cs id body post fuel, length size = 4%nat ->
  Forall (fun c => length (fst c) = 4%nat /\ zlen (snd c) < 2 ^ 32 /\ ~ wave_id (fst c)) cs ->
  length id = 4%nat -> wave_id id -> zlen body < 2 ^ 32 -> (length cs < fuel)%nat ->
  get_wave_fmt fuel (c_RIFF ++ size ++ c_WAVE ++ flat_map (enc_chunk (le_bytes 4)) cs ++ id ++ le_bytes 4 (zlen body) ++ body ++ post) =
    Ok (Some (c_RIFF ++ size ++ c_WAVE ++ id ++ le_bytes 4 (zlen body) ++ body)).
Proof.
  intros size cs id body post fuel Hs Hc Hi Hw Hb Hf. unfold get_wave_fmt. cbv zeta.
  set (rest := flat_map _ cs ++ id ++ _). assert (Ls : zlen size = 4) by (unfold zlen; lia).
  assert (E1 : fread (c_RIFF ++ size ++ c_WAVE ++ rest) 0 4 = c_RIFF) by (apply (fread_at []); reflexivity).
  assert (E2 : fread (c_RIFF ++ size ++ c_WAVE ++ rest) 4 4 = size) by (apply fread_at; auto).
  rewrite E1, E2, Ls. assert (E3 : fread (c_RIFF ++ size ++ c_WAVE ++ rest) (4 + 4) 4 = c_WAVE).
  { rewrite app_assoc. apply fread_at; auto. rewrite zlen_app, Ls. reflexivity. }
  rewrite E3. rewrite !zlist_eqb_refl. cbn [negb].
  replace (c_RIFF ++ size ++ c_WAVE ++ rest) with ((c_RIFF ++ size ++ c_WAVE) ++ rest) by (rewrite <- !app_assoc; auto).
  replace (4 + 4 + 4) with (zlen (c_RIFF ++ size ++ c_WAVE)) by (rewrite !zlen_app, Ls; reflexivity).
  unfold rest. rewrite chunk_found; auto.
  - rewrite <- !app_assoc. auto.
  - intros n Hn. rewrite le_bytes_length. split; auto. rewrite le_val_le_bytes. apply Z.mod_small. change (256 ^ Z.of_nat 4) with (2 ^ 32). lia.
  - eapply Forall_impl; [|apply Hc]. intros [i v] (A & B & C). cbn in *. split; auto. split; auto.
    destruct (zlist_eqb (slice 0 3 i) c_fmt) eqn:Q; auto. apply zlist_eqb_spec in Q. exfalso. apply C. unfold wave_id. rewrite <- Q. unfold slice. rewrite zdrop_0 by lia. auto.
  - apply zlist_eqb_spec. unfold slice. rewrite zdrop_0 by lia. auto.
Qed.

Theorem C56_aifc : forall size sig cs body post fuel, length size = 4%nat -> sig = c_AIFF \/ sig = c_AIFC ->
  Forall (fun c => length (fst c) = 4%nat /\ zlen (snd c) < 2 ^ 32 /\ fst c <> c_COMM) cs ->
  zlen body < 2 ^ 32 -> (length cs < fuel)%nat ->
  get_aifc_fmt fuel (c_FORM ++ size ++ sig ++ flat_map (enc_chunk (be_bytes 4)) cs ++ c_COMM ++ be_bytes 4 (zlen body) ++ body ++ post) =
    Ok (Some (c_FORM ++ size ++ sig ++ c_COMM ++ be_bytes 4 (zlen body) ++ body)).
Proof.
  intros size sig cs body post fuel Hs Hg Hc Hb Hf. unfold get_aifc_fmt. cbv zeta.
  set (rest := flat_map _ cs ++ c_COMM ++ _). assert (Ls : zlen size = 4) by (unfold zlen; lia).
  assert (Lg : zlen sig = 4) by (destruct Hg; subst; reflexivity).
  assert (E1 : fread (c_FORM ++ size ++ sig ++ rest) 0 4 = c_FORM) by (apply (fread_at []); reflexivity).
  assert (E2 : fread (c_FORM ++ size ++ sig ++ rest) 4 4 = size) by (apply fread_at; auto).
  rewrite E1, E2, Ls. assert (E3 : fread (c_FORM ++ size ++ sig ++ rest) (4 + 4) 4 = sig).
  { rewrite app_assoc. apply fread_at; auto. rewrite zlen_app, Ls. reflexivity. }
  rewrite E3. rewrite zlist_eqb_refl. cbn [negb].
  replace (zlist_eqb sig c_AIFF || zlist_eqb sig c_AIFC) with true by (destruct Hg; subst; reflexivity). cbn [negb].
  replace (c_FORM ++ size ++ sig ++ rest) with ((c_FORM ++ size ++ sig) ++ rest) by (rewrite <- !app_assoc; auto).
  replace (4 + 4 + 4) with (zlen (c_FORM ++ size ++ sig)) by (rewrite !zlen_app, Ls, Lg; reflexivity).
  unfold rest. rewrite chunk_found; auto.
  - rewrite <- !app_assoc. auto.
  - intros n Hn. rewrite be_bytes_length. split; auto. rewrite be_val_be_bytes. apply Z.mod_small. change (256 ^ Z.of_nat 4) with (2 ^ 32). lia.
  - eapply Forall_impl; [|apply Hc]. intros [i v] (A & B & C). cbn in *. split; auto. split; auto.
    destruct (zlist_eqb i c_COMM) eqn:Q; auto. apply zlist_eqb_spec in Q. congruence.
Qed.

(** Both scans end, with a chunk or with None, on every byte string. *)
Theorem C56_terminates : forall d fuel, bytes d -> zlen d < Z.of_nat fuel ->
  (exists r, get_wave_fmt fuel d = Ok r) /\ (exists r, get_aifc_fmt fuel d = Ok r).
Proof.
  intros d fuel Hb Hf. pose proof (zlen_nonneg _ d). split.
  - unfold get_wave_fmt. cbv zeta. destruct (negb _); [eauto|]. destruct (negb _); [eauto|]. pose proof (zlen_nonneg _ (fread d 4 4)).
    apply chunk_terminates; auto; try lia. intros s _ Hs. apply le_val_range in Hs. lia.
  - unfold get_aifc_fmt. cbv zeta. destruct (negb _); [eauto|]. destruct (negb _); [eauto|]. pose proof (zlen_nonneg _ (fread d 4 4)).
    apply chunk_terminates; auto; try lia. intros s _ Hs. apply be_val_range in Hs. lia.
Qed.

(** What comes back is never invented: it is None or a header followed by an identifier that is wanted. *)
Theorem C56_sound : forall d fuel r, bytes d -> get_wave_fmt fuel d = Ok (Some r) ->
  ztake 4 d = c_RIFF /\ exists id s body, length id = 4%nat /\ wave_id id /\ length s = 4%nat /\ r = c_RIFF ++ fread d 4 4 ++ c_WAVE ++ id ++ s ++ body /\
  exists p, id ++ s = fread d p 8 /\ body = fread d (p + 8) (le_val s).
Proof.
  intros d fuel r Hb H. unfold get_wave_fmt in H. cbv zeta in H. destruct (zlist_eqb (fread d 0 4) c_RIFF) eqn:E; [|discriminate]. cbn [negb] in H.
  destruct (zlist_eqb (fread d _ 4) c_WAVE) eqn:E2; [|discriminate]. cbn [negb] in H. apply zlist_eqb_spec in E. split.
  { unfold fread in E. rewrite zdrop_0 in E by lia. auto. }
  pose proof (zlen_nonneg _ (fread d 4 4)).
  assert (G : forall fuel pos, 0 <= pos -> chunk_loop fuel (fun id => zlist_eqb (slice 0 3 id) c_fmt) le_val d (c_RIFF ++ fread d 4 4 ++ c_WAVE) pos = Ok (Some r) ->
    exists id s body, length id = 4%nat /\ wave_id id /\ length s = 4%nat /\ r = c_RIFF ++ fread d 4 4 ++ c_WAVE ++ id ++ s ++ body /\
    exists p, id ++ s = fread d p 8 /\ body = fread d (p + 8) (le_val s)).
  2:{ eapply G; [|apply H]. lia. }
  clear H. induction fuel0 as [|n IH]; intros pos Hp H; [discriminate|]. rewrite chunk_loop_S in H. cbv zeta in H.
  set (id := fread d pos 4) in *. set (s := fread d (pos + zlen id) 4) in *. pose proof (zlen_nonneg _ id). pose proof (zlen_nonneg _ s).
  destruct ((zlen s <? 4) || (zlen id <? 4)) eqn:C; [discriminate|]. apply orb_false_iff in C. destruct C as [C1 C2].
  assert (Li : zlen id = 4). { unfold id, fread in *. rewrite zlen_ztake in * by lia. lia. }
  assert (Ls : zlen s = 4). { unfold s, fread in *. rewrite zlen_ztake in * by lia. lia. }
  destruct (zlist_eqb (slice 0 3 id) c_fmt) eqn:W; cbn [negb] in H.
  - injection H as <-. exists id, s, (fread d (pos + zlen id + zlen s) (le_val s)). split; [unfold zlen in Li; lia|]. split.
    { apply zlist_eqb_spec in W. unfold wave_id. rewrite <- W. unfold slice. rewrite zdrop_0 by lia. auto. }
    split; [unfold zlen in Ls; lia|]. split; [rewrite <- !app_assoc; auto|]. exists pos. split.
    + unfold id, s. rewrite Li. unfold fread. replace (pos + 4) with (4 + pos) by lia. rewrite <- zdrop_zdrop by lia. set (l := zdrop pos d).
      rewrite <- (ztake_zdrop _ 4 l) at 3. rewrite ztake_app2.
      * unfold id, fread in Li. fold l in Li. rewrite Li. reflexivity.
      * unfold id, fread in Li. fold l in Li. lia.
    + rewrite Li, Ls. f_equal. lia.
  - assert (0 <= le_val s) by (apply le_val_range; apply Forall_ztake, Forall_zdrop; auto).
    eapply IH; [|apply H]. destruct (le_val s mod 2 =? 1); lia.
Qed.

Example C56_case : get_wave_fmt 5 (c_RIFF ++ [9;0;0;0] ++ c_WAVE ++ [1;2;3;4] ++ [3;0;0;0] ++ [7;7;7;0] ++ c_fmt ++ [32] ++ [2;0;0;0] ++ [5;6] ++ [8])
  = Ok (Some (c_RIFF ++ [9;0;0;0] ++ c_WAVE ++ c_fmt ++ [32] ++ [2;0;0;0] ++ [5;6])) /\ wave_id (c_fmt ++ [32]) /\ ~ wave_id [1;2;3;4].
Proof. split; [reflexivity|]. split; [reflexivity|]. discriminate. Qed.

Print Assumptions C52_scan. Print Assumptions C52_terminates. Print Assumptions C52_decode.
Print Assumptions C53_items_partial. Print Assumptions C53_terminates_partial. Print Assumptions C53_decode_partial. Print Assumptions C53_empty_refuted.
Print Assumptions C53_overrun_refuted. Print Assumptions C53_primer_partial.
Print Assumptions C54_round_refuted. Print Assumptions C54_round_partial. Print Assumptions C54_zero_partial. Print Assumptions C54_header_refuted.
Print Assumptions C55_frame_size_partial. Print Assumptions C55_frames_partial. Print Assumptions C55_any_partial. Print Assumptions C55_prefix_partial. Print Assumptions C55_truncated_refuted.
Print Assumptions C56_wave. Print Assumptions C56_aifc. Print Assumptions C56_terminates. Print Assumptions C56_sound.
