(** Further statements that close gaps found with wrong programs: encoders that refuse nothing they
    should take, decoders that take nothing they should refuse. *)
From Coq Require Import ZArith List Bool String Lia.
From Verif Require Import Base BaseFacts Codec CodecFacts Text TextFacts IdsModel IdsFacts TypesModel ObjModel PropsObj.
From Verif Require DirEntryModel DirCacheModel.
Import ListNotations.
Open Scope Z_scope.

(** ** C32: what the encoders accept, and what the set decoder refuses *)

Theorem C32_set_total : forall s, 0 <= si_next s < 2 ^ 32 -> 0 <= si_last s < 2 ^ 32 -> 0 <= si_pid s < 65536 ->
  si_size s = 16 \/ si_size s = 32 -> zlen (si_refs s) < 2 ^ 32 -> Forall (fun kl => 0 <= snd kl < 2 ^ 32) (si_refs s) ->
  exists d, set_write s = Ok d.
Proof.
  intros s H1 H2 H3 H4 H5 H6. unfold set_write. pose proof (zlen_nonneg _ (si_refs s)).
  rewrite !pack_total by (change (256 ^ Z.of_nat 4) with (2 ^ 32); change (256 ^ Z.of_nat 2) with 65536; change (256 ^ Z.of_nat 1) with 256; lia). cbn [bind].
  rewrite (cat_map_total _ _ (fun kl => le_bytes 4 (snd kl) ++ le_bytes 4 1 ++ fst kl)). { cbn [bind]. eauto. }
  intros x Hx. rewrite Forall_forall in H6. apply H6 in Hx. rewrite !pack_total by (change (256 ^ Z.of_nat 4) with (2 ^ 32); lia). reflexivity.
Qed.
Print Assumptions C32_set_total.

Theorem C32_weak_array_total : forall index pid size refs, 0 <= index < 65536 -> 0 <= pid < 65536 -> size = 16 \/ size = 32 -> zlen refs < 2 ^ 32 ->
  exists d, weaks_write index pid size refs = Ok d.
Proof.
  intros index pid size refs H1 H2 H3 H4. unfold weaks_write. pose proof (zlen_nonneg _ refs).
  rewrite !pack_total by (change (256 ^ Z.of_nat 4) with (2 ^ 32); change (256 ^ Z.of_nat 2) with 65536; change (256 ^ Z.of_nat 1) with 256; lia). cbn [bind]. eauto.
Qed.
Print Assumptions C32_weak_array_total.

Theorem C32_weak_value_total : forall index pid ref, 0 <= index < 65536 -> 0 <= pid < 65536 ->
  (zlen ref = 16 \/ zlen ref = 32 -> exists d, weak_encode index pid ref = Ok d) /\
  (zlen ref <> 16 -> zlen ref <> 32 -> weak_encode index pid ref = Err AssertionError).
Proof.
  intros index pid ref H1 H2. unfold weak_encode. split.
  - intros H. replace ((zlen ref =? 16) || (zlen ref =? 32)) with true by lia.
    rewrite !pack_total by (change (256 ^ Z.of_nat 2) with 65536; change (256 ^ Z.of_nat 1) with 256; lia). cbn [bind]. eauto.
  - intros Ha Hb. replace ((zlen ref =? 16) || (zlen ref =? 32)) with false by lia. reflexivity.
Qed.
Print Assumptions C32_weak_value_total.

Example C32_total_case : exists d, set_write (SetIndex 1 4294967295 5 16 [(repeat 7 16, 0)]) = Ok d /\ zlen d = 39.
Proof. eexists. split; [vm_compute; reflexivity|reflexivity]. Qed.
Example C32_weak_total_case : exists d e, weaks_write 2 5 16 [repeat 7 16] = Ok d /\ zlen d = 25 /\ weak_encode 2 5 (repeat 7 16) = Ok e /\ zlen e = 21 /\
  weak_encode 2 5 (repeat 7 15) = Err AssertionError.
Proof. do 2 eexists. split; [vm_compute; reflexivity|]. split; [reflexivity|]. split; [vm_compute; reflexivity|]. split; reflexivity. Qed.

(** a set index that is too short or too long for its count is refused *)
Lemma rd_u_inv : forall n l v r, rd_u n l = Ok (v, r) -> v = le_val (ztake (Z.of_nat n) l) /\ r = zdrop (Z.of_nat n) l /\ Z.of_nat n <= zlen l.
Proof.
  intros n l v r H. unfold rd_u, rd, unpack_u in H. destruct (zlen (ztake (Z.of_nat n) l) =? Z.of_nat n) eqn:E; [|discriminate]. cbn [bind] in H.
  injection H as <- <-. split; auto. split; auto. apply Z.eqb_eq in E. rewrite zlen_ztake in E; lia.
Qed.
Theorem C32_set_exact : forall d s, set_read d = Ok s ->
  zlen d = 15 + le_val (ztake 4 d) * (8 + si_size s) /\ (si_size s = 16 \/ si_size s = 32).
Proof.
  intros d s H. unfold set_read in H.
  destruct (rd_u 4 d) as [[c l1]|] eqn:E1; [|discriminate]. cbn [bind] in H. apply rd_u_inv in E1. destruct E1 as (-> & -> & L1).
  destruct (rd_u 4 (zdrop _ d)) as [[x l2]|] eqn:E2; [|discriminate]. cbn [bind] in H. apply rd_u_inv in E2. destruct E2 as (-> & -> & L2).
  destruct (rd_u 4 (zdrop _ (zdrop _ d))) as [[y l3]|] eqn:E3; [|discriminate]. cbn [bind] in H. apply rd_u_inv in E3. destruct E3 as (-> & -> & L3).
  destruct (rd_u 2 (zdrop _ (zdrop _ (zdrop _ d)))) as [[z l4]|] eqn:E4; [|discriminate]. cbn [bind] in H. apply rd_u_inv in E4. destruct E4 as (-> & -> & L4).
  destruct (rd_u 1 _) as [[w l5]|] eqn:E5; [|discriminate]. cbn [bind] in H. apply rd_u_inv in E5. destruct E5 as (-> & -> & L5).
  destruct (_ || _) eqn:G1 in H; [|discriminate]. destruct (_ =? _) eqn:G2 in H; [|discriminate]. destruct (set_items _ _ _ _) in H; [|discriminate].
  injection H as <-. cbn [si_size]. apply Z.eqb_eq in G2. rewrite !zlen_zdrop in * by lia. cbn [Z.of_nat Pos.of_succ_nat Pos.succ] in *. split; [|lia].
  set (k := le_val (ztake 4 d)) in *. set (q := 8 + _) in *. lia.
Qed.
Print Assumptions C32_set_exact.
Example C32_set_exact_case : exists d, set_write (SetIndex 1 4294967295 5 16 [(repeat 7 16, 0)]) = Ok d /\
  set_read d = Ok (SetIndex 1 4294967295 5 16 [(repeat 7 16, 0)]) /\ set_read (d ++ [0]) = Err StructError /\ set_read (removelast d) = Err StructError.
Proof. eexists. split; [vm_compute; reflexivity|]. vm_compute. repeat split. Qed.

(** ** C37 and C39: text of the wrong length *)

(** Text without the characters that AUID(hex=...) removes, of any length other than 32, is refused. *)
Theorem C37_hex_refused : forall s, (forall c, In c s -> c <> 117 /\ c <> 45 /\ c <> 123 /\ c <> 125) -> zlen s <> 32 -> auid_of_hex s = Err ValueError.
Proof.
  intros s N L. unfold auid_of_hex.
  rewrite (del_absent (codes "urn:") 117) by (cbn; auto; intros X; apply N in X; lia).
  rewrite (del_absent (codes "uuid:") 117) by (cbn; auto; intros X; apply N in X; lia).
  rewrite strip_id by (intros c Hc X; change (codes "{}") with [123; 125] in X; apply N in Hc; destruct X as [X|[X|[]]]; lia).
  rewrite (del_absent (codes "-") 45) by (cbn; auto; intros X; apply N in X; lia).
  replace (zlen s =? 32) with false by lia. reflexivity.
Qed.
Print Assumptions C37_hex_refused.
Example C37_hex_refused_case : auid_of_hex (repeat 48 31) = Err ValueError /\ auid_of_hex (repeat 48 33) = Err ValueError /\ exists a, auid_of_hex (repeat 48 32) = Ok a.
Proof. split; [reflexivity|]. split; [reflexivity|]. eexists. vm_compute. reflexivity. Qed.

(** Digits of the wrong number are refused by the URN setter. *)
Theorem C39_length_partial : forall m s, Forall hexdig s -> zlen s <> 64 -> m_set_urn m s = Err AssertionError.
Proof.
  intros m s F L. unfold m_set_urn. rewrite Forall_forall in F.
  assert (N : forall c, In c (lower s) -> 48 <= c <= 57 \/ 97 <= c <= 102).
  { intros c H. unfold lower in H. apply in_map_iff in H. destruct H as (x & E & H). apply F in H. apply hexdig_cases in H.
    destruct ((65 <=? x) && (x <=? 90)) eqn:G; lia. }
  cbn [fold_left].
  rewrite (del_absent (codes "urn:smpte:umid:") 117) by (try (left; reflexivity); intros X; apply N in X; lia).
  rewrite (del_absent (codes ".") 46) by (try (left; reflexivity); intros X; apply N in X; lia).
  rewrite (del_absent (codes "-") 45) by (try (left; reflexivity); intros X; apply N in X; lia).
  rewrite (del_absent (codes "0x") 120) by (try (right; left; reflexivity); intros X; apply N in X; lia).
  replace (zlen (lower s) =? 64) with false; auto. unfold lower, zlen in *. rewrite map_length. lia.
Qed.
Print Assumptions C39_length_partial.
Example C39_length_case : Forall hexdig (repeat 70 63) /\ zlen (repeat 70 63) <> 64 /\ exists m, m_set_urn (repeat 0 32) (repeat 70 64) = Ok m.
Proof. split; [apply Forall_forall; intros x H; apply repeat_spec in H; subst; eexists; reflexivity|]. split; [vm_compute; discriminate|]. eexists. vm_compute. reflexivity. Qed.

(** ** C58: the type that is chosen *)

(** [a] is the identifier written [s] *)
Definition written (s : string) (a : list Z) : Prop := auid_of_hex (codes s) = Ok a.
Theorem C58_chosen : forall lookup,
  (forall a t v, lookup a = Some t -> indirect_auid lookup (Some a) v = Ok a) /\
  (forall a v, lookup a = None -> indirect_auid lookup (Some a) v = Err PropertyError) /\
  (forall s, exists a, indirect_auid lookup None (VStr s) = Ok a /\ written "01100200-0000-0000-060e-2b3401040101" a) /\
  (forall n d, exists a, indirect_auid lookup None (VRat n d) = Ok a /\ written "03010100-0000-0000-060e-2b3401040101" a) /\
  (forall z, exists a, indirect_auid lookup None (VInt z) = Ok a /\ written "01010700-0000-0000-060e-2b3401040101" a) /\
  (forall b, exists a, indirect_auid lookup None (VBool b) = Ok a /\ written "01010700-0000-0000-060e-2b3401040101" a) /\
  (forall v, (forall s, v <> VStr s) -> (forall n d, v <> VRat n d) -> (forall z, v <> VInt z) -> (forall b, v <> VBool b) ->
     indirect_auid lookup None v = Err NotImplemented).
Proof.
  intros lookup. split; [intros a t v H; cbn; rewrite H; reflexivity|]. split; [intros a v H; cbn; rewrite H; reflexivity|].
  split; [intros s; eexists; split; [reflexivity|vm_compute; reflexivity]|].
  split; [intros n d; eexists; split; [reflexivity|vm_compute; reflexivity]|].
  split; [intros z; eexists; split; [reflexivity|vm_compute; reflexivity]|].
  split; [intros z; eexists; split; [reflexivity|vm_compute; reflexivity]|].
  intros v H1 H2 H3 H4. destruct v; cbn; auto; exfalso; [eapply H3|eapply H4|eapply H1|eapply H2]; reflexivity.
Qed.
Print Assumptions C58_chosen.

(** ** C12: reading the name of an entry *)

(** Reading a name changes no byte; it is the same when it is read again; a stored size above 64 is
    refused as long as no name is known. *)
Theorem C12_read : forall e, 
  (forall e1 n, DirEntryModel.get_name e = Ok (e1, n) ->
     DirEntryModel.de_data e1 = DirEntryModel.de_data e /\ DirEntryModel.get_name e1 = Ok (e1, n) /\
     (forall n', DirEntryModel.de_name e = Some n' -> n = n')) /\
  (DirEntryModel.de_name e = None -> 64 < le_val (slice 64 66 (DirEntryModel.de_data e)) -> DirEntryModel.get_name e = Err AssertionError).
Proof.
  intros [d nm]. split.
  - intros e1 n H. unfold DirEntryModel.get_name in H. cbn [DirEntryModel.de_name DirEntryModel.de_data] in *. destruct nm as [x|].
    + injection H as <- <-. split; [reflexivity|]. split; [reflexivity|]. intros n' E. congruence.
    + cbn zeta in H. destruct (_ <=? 64); [|discriminate]. injection H as <- <-. split; [reflexivity|]. split; [reflexivity|]. discriminate.
  - cbn [DirEntryModel.de_name DirEntryModel.de_data]. intros -> H. unfold DirEntryModel.get_name, DirEntryModel.unpack_from. cbn [DirEntryModel.de_name DirEntryModel.de_data]. cbn zeta.
    change (64 + 2) with 66. replace (le_val (slice 64 66 d) <=? 64) with false by lia. reflexivity.
Qed.
Print Assumptions C12_read.
Example C12_read_case : exists e1, DirEntryModel.get_name (DirEntryModel.dent_load (splice 64 [4] (splice 0 [65; 0] (zeros 128)))) = Ok (e1, [65]) /\
  DirEntryModel.get_name (DirEntryModel.dent_load (splice 64 [66] (zeros 128))) = Err AssertionError.
Proof. eexists. vm_compute. split; reflexivity. Qed.

(** ** C14: the bytes of a new entry

    DirCacheModel gives the image of a new entry directly; it is the one that the constructor
    (cfb.py:472-489) makes, by the setters of DirEntryModel. *)
Theorem C14_blank_partial : DirEntryModel.dent_blank = Ok (DirEntryModel.mkde DirCacheModel.blank_data None).
Proof. vm_compute. reflexivity. Qed.
Print Assumptions C14_blank_partial.
