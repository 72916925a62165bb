(** Directory entry objects refine one string of bytes per id. *)
From Verif Require Import Base BaseFacts LRUModel CfbModel CfbInv CfbBytes CfbSave SaveFacts CloseFacts StreamSpec DirCacheModel.
From Coq Require Import ZArith List Bool Lia.
Import ListNotations.
Open Scope Z_scope.
Notation length := List.length.
Local Arguments slot : simpl never.
Local Arguments blank_data : simpl never.

(** ** Dictionaries *)
Lemma aget_In : forall l i a, aget l i = Some a -> In (i, a) l.
Proof. induction l as [|[j b] l IH]; cbn; intros i a E; [discriminate|]. destruct (j =? i) eqn:B; [inversion E; subst; apply Z.eqb_eq in B; subst; auto|right; auto]. Qed.
Lemma aget_key : forall l i, In i (akeys l) -> exists a, aget l i = Some a.
Proof. induction l as [|[j b] l IH]; cbn; intros i H; [tauto|]. destruct (j =? i) eqn:B; [eauto|]. destruct H as [H|H]; [lia|auto]. Qed.
Lemma In_adel : forall l i p, In p (adel l i) <-> In p l /\ fst p <> i.
Proof. intros. unfold adel. rewrite filter_In. destruct p as [j b]. cbn. destruct (j =? i) eqn:B; cbn; split; intros [A C]; split; auto; lia. Qed.
Lemma In_akeys : forall l i, In i (akeys l) <-> exists a, In (i, a) l.
Proof. intros. unfold akeys. rewrite in_map_iff. split; [intros ([j a] & E & H); cbn in E; subst; eauto|intros (a & H); exists (i, a); auto]. Qed.
Lemma In_akeys_adel : forall l i j, In j (akeys (adel l i)) <-> In j (akeys l) /\ j <> i.
Proof. intros. rewrite !In_akeys. split; [intros (a & H); apply In_adel in H; cbn in H; split; [exists a|]; tauto|intros ((a & H) & N); exists a; apply In_adel; auto]. Qed.

Lemma upd_same : forall A (f : Z -> A) i v, upd f i v i = v.
Proof. intros. unfold upd. rewrite Z.eqb_refl. auto. Qed.
Lemma upd_other : forall A (f : Z -> A) i v j, j <> i -> upd f i v j = f j.
Proof. intros. unfold upd. replace (j =? i) with false by lia. auto. Qed.
Lemma existsb_In : forall i l, existsb (Z.eqb i) l = true <-> In i l.
Proof. intros. rewrite existsb_exists. split; [intros (x & H & E); apply Z.eqb_eq in E; subst; auto|intros H; exists i; rewrite Z.eqb_refl; auto]. Qed.

(** ** The relation *)
Definition view (k : dstate) (a : Z) : option var :=
  if existsb (Z.eqb a) (k_held k) then
    Some (match o_id (k_objs k a) with Some i => VEntry i | None => VFreed (o_data (k_objs k a)) end)
  else None.

Record geo (s : cfb) : Prop := {
  g_min : 128 <= ss s; g_mod : ss s mod 128 = 0; g_nd : NoDup (dir_chain s);
  g_nn : forall x, In x (dir_chain s) -> 0 <= x; g_cache : cache_ok s }.

(** [x]: an id whose slot need not be right yet *)
Record RK (x : Z -> Prop) (k : dstate) (z : dspec) : Prop := {
  r_geo : geo (k_s k);
  r_rw : k_ro k = false;
  r_dir : forall i, In i (z_live z) -> in_dir (ss (k_s k)) (dir_chain (k_s k)) i;
  r_len : forall i, In i (z_live z) -> zlen (z_data z i) = 128;
  r_cache : forall i a, k_cache k i = Some a -> In i (z_live z) /\ o_id (k_objs k a) = Some i /\ a < k_new k /\ o_data (k_objs k a) = z_data z i;
  r_held : forall a, In a (k_held k) -> a < k_new k /\ forall i, o_id (k_objs k a) = Some i -> k_cache k i = Some a;
  r_mod : forall i a, In (i, a) (k_mod k) -> k_cache k i = Some a;
  r_slot : forall i, In i (z_live z) -> ~ x i -> ~ In i (akeys (k_mod k)) -> slot (file (k_s k)) (ss (k_s k)) (dir_chain (k_s k)) i = z_data z i;
  r_var : forall a, z_var z a = view k a }.
Definition none (_ : Z) : Prop := False.

Lemma RK_weak : forall (x y : Z -> Prop) k z, (forall i, x i -> y i) -> RK x k z -> RK y k z.
Proof. intros x y k z H []. constructor; auto. Qed.

Lemma FileOnly_geo : forall s s', geo s -> FileOnly s s' -> cache_ok s' -> geo s' /\ ss s' = ss s /\ dir_chain s' = dir_chain s.
Proof. intros s s' [] F C. destruct (FileOnly_fields _ _ F) as [E1 E2]. split; auto. constructor; rewrite ?E1, ?E2; auto. Qed.

(** changing the file but not the slots *)
Lemma RK_file : forall x k z s', RK x k z -> FileOnly (k_s k) s' -> cache_ok s' ->
  (forall i, in_dir (ss (k_s k)) (dir_chain (k_s k)) i -> slot (file s') (ss (k_s k)) (dir_chain (k_s k)) i = slot (file (k_s k)) (ss (k_s k)) (dir_chain (k_s k)) i) ->
  RK x (kset_s k s') z.
Proof.
  intros x k z s' H F C Hs. destruct (FileOnly_geo _ _ (r_geo _ _ _ H) F C) as (G & E1 & E2).
  destruct H. constructor; cbn; auto; rewrite ?E1, ?E2; auto. intros i Hi Hx Hm. rewrite ?E1, ?E2, Hs; auto.
Qed.

(** ** Flushing *)
Lemma write_mods_ok : forall ids k z x, RK x k z -> (forall i, In i ids -> In i (akeys (k_mod k))) ->
  exists k1, write_mods k ids = Ok k1 /\ RK x k1 z /\ k_mod k1 = k_mod k /\ k_held k1 = k_held k /\ k_cache k1 = k_cache k /\ k_objs k1 = k_objs k /\ k_new k1 = k_new k /\
    forall i, In i (z_live z) -> (In i ids \/ slot (file (k_s k)) (ss (k_s k)) (dir_chain (k_s k)) i = z_data z i) -> slot (file (k_s k1)) (ss (k_s k1)) (dir_chain (k_s k1)) i = z_data z i.
Proof.
  induction ids as [|i ids IH]; intros k z x H Hin; cbn [write_mods].
  - exists k. split; [auto|]. split; [auto|]. repeat (split; [reflexivity|]). intros i Hi [[]|E]; auto.
  - destruct (aget_key (k_mod k) i (Hin i (or_introl eq_refl))) as [a Ea]. rewrite Ea.
    pose proof (r_mod _ _ _ H _ _ (aget_In _ _ _ Ea)) as Ec. destruct (r_cache _ _ _ H _ _ Ec) as (Hl & Eo & Hn & Ed).
    rewrite Eo, Ed. pose proof (r_geo _ _ _ H) as G. destruct (write_slot_ok (k_s k) i (z_data z i)) as (s1 & E1 & F1 & C1 & L1 & S1 & O1 & B1);
      try apply G; [apply (r_dir _ _ _ H); auto|apply (r_len _ _ _ H); auto|].
    rewrite E1. cbn [bind]. destruct (FileOnly_geo _ _ G F1 (C1 (g_cache _ G))) as (G1 & Es & Edc).
    assert (HS : forall j, In j (z_live z) -> j = i \/ slot (file (k_s k)) (ss (k_s k)) (dir_chain (k_s k)) j = z_data z j -> slot (file s1) (ss (k_s k)) (dir_chain (k_s k)) j = z_data z j).
    { intros j Hj [->|E]; auto. destruct (Z.eq_dec j i) as [->|N]; auto. rewrite O1; auto. apply (r_dir _ _ _ H); auto. }
    destruct (IH (kset_s k s1) z x) as (k1 & E2 & H2 & M2 & P2 & Q2 & T2 & U2 & W2).
    { destruct H. constructor; cbn; auto; rewrite ?Es, ?Edc; auto. }
    { intros j Hj. apply Hin. right. auto. }
    exists k1. split; [auto|]. split; [auto|]. cbn in M2, P2, Q2, T2, U2. repeat (split; [congruence|]).
    intros j Hj D. apply W2; auto. cbn. rewrite Es, Edc. destruct D as [[<-|D]|D]; auto.
Qed.

Lemma kflush_ok : forall k z x, RK x k z -> (forall i, x i -> In i (akeys (k_mod k))) ->
  exists k1, kflush k = Ok k1 /\ RK none k1 z.
Proof.
  intros k z x H Hx. unfold kflush. destruct (write_mods_ok (sort_ids (akeys (k_mod k))) k z x H) as (k1 & E & H1 & M & P & Q & T & U & W).
  { intros i Hi. apply (proj1 (In_sort _ _)) in Hi. auto. }
  rewrite E. cbn [bind]. eexists. split; [reflexivity|]. destruct H1 as [h1 h2 h3 h4 h5 h6 h7 h8 h9]. constructor; cbn; auto.
  - intros i a [].
  - intros i Hi _ _. apply W; auto. destruct (in_dec Z.eq_dec i (akeys (k_mod k))) as [D|D]; [left; apply (proj2 (In_sort _ _)); auto|].
    right. apply (r_slot _ _ _ H); auto.
Qed.

(** ** Setting a field of an entry in use; the slot of that entry may be anything before *)
Lemma kset_field_ok : forall k z a i off d, RK (eq i) k z -> k_cache k i = Some a -> 0 <= off -> off + zlen d <= 128 ->
  exists k1, kset_field k a off d = Ok k1 /\
    RK none k1 (mkds (z_live z) (upd (z_data z) i (splice off d (z_data z i))) (z_var z)) /\ k_cache k1 = k_cache k.
Proof.
  intros k z a i off d H Ec Ho Hd. destruct (r_cache _ _ _ H _ _ Ec) as (Hl & Eo & Hn & Ed). unfold kset_field.
  set (o := mkobj (o_id (k_objs k a)) (splice off d (o_data (k_objs k a)))). set (k0 := kset_obj k a o).
  set (z1 := mkds _ _ _). unfold kmark. replace (k_ro k0) with false by (symmetry; apply (r_rw _ _ _ H)).
  assert (Ea : o_id (k_objs k0 a) = Some i) by (cbn; rewrite upd_same; auto). rewrite Ea.
  set (k1 := kset_mod k0 (aput (k_mod k0) i a)).
  assert (H1 : RK none k1 z1).
  { pose proof H as HH. destruct H as [h1 h2 h3 h4 h5 h6 h7 h8 h9]. constructor; cbn -[upd]; auto.
    - intros j Hj. unfold upd. destruct (j =? i) eqn:B; auto. rewrite zlen_splice; auto; rewrite h4; auto; lia.
    - intros j b Eb. destruct (h5 _ _ Eb) as (A1 & A2 & A3 & A4). split; auto. destruct (Z.eq_dec b a) as [->|N].
      + rewrite upd_same. cbn. assert (j = i) by congruence. subst j. rewrite upd_same. repeat split; auto. rewrite A4. auto.
      + rewrite !upd_other; auto. intros ->. congruence.
    - intros b Hb. destruct (h6 _ Hb) as [A B]. split; auto. intros j. destruct (Z.eq_dec b a) as [->|N].
      + rewrite upd_same. cbn. auto.
      + rewrite upd_other by auto. auto.
    - intros j b [E|E]; [inversion E; subst; auto|]. apply In_adel in E. apply h7. tauto.
    - intros j Hj _ Hm. assert (N : j <> i) by (intros ->; apply Hm; left; auto). rewrite upd_other by auto. apply h8; auto.
      intros B. apply Hm. right. apply In_akeys_adel. auto.
    - intros b. rewrite h9. unfold view. cbn -[upd]. destruct (existsb (Z.eqb b) (k_held k)) eqn:B; auto.
      destruct (Z.eq_dec b a) as [->|N]; [|rewrite upd_other; auto]. rewrite upd_same. cbn. rewrite Eo. auto. }
  destruct (128 <? zlen (k_mod k1)).
  - destruct (kflush_ok k1 z1 none H1) as (k2 & E2 & H2); [intros ? []|]. exists k2. split; auto. split; auto.
    unfold kflush in E2. destruct (write_mods_ok (sort_ids (akeys (k_mod k1))) k1 z1 none H1) as (k3 & E3 & H3 & M & P & Q & T & U & W).
    { intros j Hj. apply (proj1 (In_sort _ _)) in Hj. auto. }
    rewrite E3 in E2. cbn in E2. inversion E2; subst. cbn. rewrite Q. reflexivity.
  - exists k1. auto.
Qed.

(** the object of a new entry is not yet in the cache while its fields are set; nothing looks there *)
Lemma write_mods_cache : forall ids k c, write_mods (kset_cache k c) ids = do k1 <- write_mods k ids ;; Ok (kset_cache k1 c).
Proof.
  induction ids as [|i ids IH]; intros k c; cbn [write_mods bind]; auto. cbn [kset_cache k_mod k_objs k_s].
  destruct (aget (k_mod k) i) as [a|]; auto. destruct (o_id (k_objs k a)) as [j|]; auto.
  destruct (write_slot (k_s k) j (o_data (k_objs k a))) as [s1|]; auto. cbn [bind]. rewrite <- IH. reflexivity.
Qed.
Lemma kset_field_cache : forall k c a off d, kset_field (kset_cache k c) a off d = do k1 <- kset_field k a off d ;; Ok (kset_cache k1 c).
Proof.
  intros. unfold kset_field, kmark. cbn -[upd kflush zlen]. destruct (k_ro k); auto. rewrite upd_same. cbn -[upd kflush zlen].
  destruct (o_id (k_objs k a)) as [i|]; auto. match goal with |- context [128 <? ?n] => destruct (128 <? n) end; auto.
  unfold kflush. cbn -[upd write_mods]. match goal with |- bind (write_mods ?A ?l) _ = bind (bind (write_mods ?B _) _) _ => change A with (kset_cache B c); rewrite write_mods_cache; destruct (write_mods B l) end; auto.
Qed.
Lemma kset_fields_cache : forall us k c a, kset_fields (kset_cache k c) a us = do k1 <- kset_fields k a us ;; Ok (kset_cache k1 c).
Proof.
  induction us as [|[off d] us IH]; intros; cbn [kset_fields]; auto. rewrite kset_field_cache. destruct (kset_field k a off d); auto. cbn [bind]. apply IH.
Qed.

Lemma RK_ext : forall x k z z', RK x k z -> z_live z' = z_live z -> (forall i, In i (z_live z) -> z_data z' i = z_data z i) -> (forall a, z_var z' a = z_var z a) -> RK x k z'.
Proof.
  intros x k z z' H E1 E2 E3. destruct H as [h1 h2 h3 h4 h5 h6 h7 h8 h9]. constructor; auto; rewrite ?E1; auto.
  - intros i Hi. rewrite E2; auto.
  - intros i a Hi. destruct (h5 i a Hi) as (A & B & C & D). rewrite E2; auto.
  - intros i Hi A B. rewrite E2; auto.
  - intros a. rewrite E3. auto.
Qed.

Lemma kset_fields_ok : forall us k z a i, RK none k z -> k_cache k i = Some a -> forallb field_b us = true ->
  exists k1, kset_fields k a us = Ok k1 /\ RK none k1 (mkds (z_live z) (upd (z_data z) i (splices (z_data z i) us)) (z_var z)).
Proof.
  induction us as [|[off d] us IH]; intros k z a i H Ec Hf; cbn [kset_fields].
  - exists k. split; auto. eapply RK_ext; eauto. intros j Hj. cbn. unfold upd. destruct (j =? i) eqn:B; auto. f_equal. lia.
  - cbn in Hf. apply andb_prop in Hf as [Hu Hf]. unfold field_b in Hu. cbn in Hu.
    destruct (kset_field_ok k z a i off d) as (k1 & E1 & H1 & C1); try lia; auto. { eapply RK_weak; [|eauto]. intros ? []. }
    rewrite E1. cbn [bind]. destruct (IH k1 _ a i H1) as (k2 & E2 & H2); auto; [congruence|].
    exists k2. split; auto. eapply RK_ext; [exact H2|reflexivity| |reflexivity].
    intros j Hj. cbn -[upd]. destruct (Z.eq_dec j i) as [->|N]; [rewrite !upd_same; auto|]. rewrite !upd_other; auto.
Qed.

Lemma zlen_blank_data : zlen blank_data = 128.
Proof. reflexivity. Qed.

Lemma kcreate_ok : forall k z i us, RK none k z -> ~ In i (z_live z) -> in_dir (ss (k_s k)) (dir_chain (k_s k)) i -> forallb field_b us = true -> us <> [] ->
  exists k1, kcreate k i us = Ok (k1, k_new k) /\
    RK none k1 (mkds (i :: z_live z) (upd (z_data z) i (splices blank_data us)) (upd (z_var z) (k_new k) (Some (VEntry i)))).
Proof.
  intros k z i us H Hi Hd Hf Hu. unfold kcreate. set (a := k_new k). set (k0 := kalloc k (mkobj (Some i) blank_data)).
  set (c := upd (k_cache k) i (Some a)). set (z0 := mkds (i :: z_live z) (upd (z_data z) i blank_data) (upd (z_var z) a (Some (VEntry i)))).
  assert (Hnew : forall j b, k_cache k j = Some b -> b <> a) by (intros j b E; destruct (r_cache _ _ _ H _ _ E) as (_ & _ & L & _); unfold a; lia).
  assert (Hnk : k_cache k i = None).
  { destruct (k_cache k i) as [b|] eqn:E; auto. destruct (r_cache _ _ _ H _ _ E) as (L & _). tauto. }
  assert (H0 : RK (eq i) (kset_cache k0 c) z0).
  { pose proof H as HH. destruct H as [h1 h2 h3 h4 h5 h6 h7 h8 h9]. constructor; cbn -[upd]; auto.
    - intros j [<-|Hj]; auto.
    - intros j Hj. unfold upd. destruct (j =? i) eqn:B; [reflexivity|]. destruct Hj as [Hj|Hj]; [lia|auto].
    - intros j b. unfold c. destruct (Z.eq_dec j i) as [->|N].
      + rewrite upd_same. intros E. injection E as <-. fold a. rewrite !upd_same. cbn. repeat split; auto; lia.
      + rewrite upd_other by auto. intros E. destruct (h5 _ _ E) as (A1 & A2 & A3 & A4). fold a. rewrite !upd_other by eauto. fold a in A3. repeat split; auto; lia.
    - intros b [<-|Hb].
      + fold a. split; [lia|]. rewrite upd_same. cbn. intros j E. injection E as <-. apply upd_same.
      + destruct (h6 _ Hb) as [L E]. fold a in L. fold a. rewrite upd_other by lia. split; [lia|]. intros j Ej. specialize (E _ Ej). unfold c. rewrite upd_other; auto. intros ->. congruence.
    - intros j b Hj. specialize (h7 _ _ Hj). unfold c. rewrite upd_other; auto. intros ->. congruence.
    - intros j [<-|Hj] N; [tauto|]. intros Hm. rewrite upd_other by auto. apply h8; auto.
    - intros b. unfold view. cbn -[upd]. fold a. destruct (Z.eq_dec b a) as [->|N].
      + rewrite !upd_same. rewrite Z.eqb_refl. reflexivity.
      + rewrite !upd_other by auto. rewrite h9. replace (b =? a) with false by lia. reflexivity. }
  destruct us as [|[off d] us]; [tauto|].
  assert (HF : exists k1, kset_fields (kset_cache k0 c) a ((off, d) :: us) = Ok k1 /\
     RK none k1 (mkds (i :: z_live z) (upd (z_data z) i (splices blank_data ((off, d) :: us))) (upd (z_var z) a (Some (VEntry i))))).
  { cbn in Hf. apply andb_prop in Hf as [Hx Hf]. unfold field_b in Hx. cbn in Hx.
    destruct (kset_field_ok (kset_cache k0 c) z0 a i off d) as (k1 & E1 & H1 & C1); auto; try lia. { apply upd_same. }
    cbn [kset_fields]. rewrite E1. cbn [bind]. destruct (kset_fields_ok us k1 _ a i H1) as (k2 & E2 & H2); auto. { rewrite C1. apply upd_same. }
    exists k2. split; auto. eapply RK_ext; [exact H2|reflexivity| |reflexivity].
    intros j Hj. cbn -[upd blank_data]. destruct (Z.eq_dec j i) as [->|N]; [rewrite !upd_same; auto|]. rewrite !upd_other; auto. }
  destruct HF as (k1 & E1 & H1). rewrite kset_fields_cache in E1. destruct (kset_fields k0 a ((off, d) :: us)) as [k2|] eqn:E2; cbn in E1; [|discriminate].
  injection E1 as <-. cbn [bind]. exists (kset_cache k2 c). split; auto. f_equal. f_equal. f_equal.
  (* fields do not touch the cache *)
  pose proof (kset_fields_cache ((off, d) :: us) k0 (k_cache k0) a) as K.
  replace (kset_cache k0 (k_cache k0)) with k0 in K by (destruct k0; reflexivity). rewrite E2 in K. cbn [bind] in K. injection K as K.
  unfold c. rewrite K. reflexivity.
Qed.

Lemma kaccess_ok : forall k z i, RK none k z -> In i (z_live z) ->
  exists k1 a, kaccess k i = Ok (k1, a) /\ (z_var z a = None \/ z_var z a = Some (VEntry i)) /\
    RK none k1 (mkds (z_live z) (z_data z) (upd (z_var z) a (Some (VEntry i)))).
Proof.
  intros k z i H Hi. unfold kaccess. destruct (k_cache k i) as [a|] eqn:Ec.
  - destruct (r_cache _ _ _ H _ _ Ec) as (_ & Eo & L & Ed). exists (kset_held k (a :: k_held k)), a. split; auto.
    assert (Ev : z_var z a = None \/ z_var z a = Some (VEntry i)).
    { rewrite (r_var _ _ _ H). unfold view. rewrite Eo. destruct (existsb (Z.eqb a) (k_held k)); auto. }
    split; auto. destruct H as [h1 h2 h3 h4 h5 h6 h7 h8 h9]. constructor; cbn -[upd]; auto.
    + intros b [<-|Hb]; auto. split; auto. intros j E. congruence.
    + intros b. unfold view. cbn -[upd]. destruct (Z.eq_dec b a) as [->|N]; [rewrite upd_same, Z.eqb_refl, Eo; auto|].
      rewrite upd_other by auto. rewrite h9. replace (b =? a) with false by lia. auto.
  - pose proof (r_geo _ _ _ H) as G. destruct (slot_index (ss (k_s k)) (dir_chain (k_s k)) i) as (A & B & C); try apply G. { apply (r_dir _ _ _ H); auto. }
    destruct (znth_in_range _ _ _ A) as [sid Es]. rewrite Es.
    assert (Hs : 0 <= sid) by (apply (g_nn _ G); eapply znth_In; eauto). pose proof (g_min _ G).
    destruct (read_sector_ok (k_s k) sid (g_cache _ G)) as (s1 & E1 & C1 & HC1); try lia. rewrite E1.
    set (a := k_new k). set (off := i * 128 mod ss (k_s k)) in *.
    assert (Ed : slice off (off + 128) (sector_bytes (file (k_s k)) (ss (k_s k)) sid) = z_data z i).
    { rewrite <- (r_slot _ _ _ H i Hi); [|intros []|].
      - unfold sector_bytes. rewrite slice_map_zseq by lia. unfold slot. apply map_zseq_shift; [lia|]. intros j Hj. f_equal.
        unfold spos. fold off. unfold nthd. rewrite Es. lia.
      - intros Hm. apply In_akeys in Hm as [b Hm]. apply (r_mod _ _ _ H) in Hm. congruence. }
    rewrite Ed. eexists _, a. split; [reflexivity|].
    assert (Hnh : existsb (Z.eqb a) (k_held k) = false).
    { destruct (existsb (Z.eqb a) (k_held k)) eqn:E; auto. apply existsb_In in E. destruct (r_held _ _ _ H _ E). unfold a in *. lia. }
    split. { left. rewrite (r_var _ _ _ H). unfold view. rewrite Hnh. auto. }
    assert (H1 : RK none (kset_s k s1) z). { apply RK_file; auto. apply CacheOnly_FileOnly; auto. intros. rewrite C1. auto. }
    clear H. rename H1 into H. set (k' := kset_s k s1) in *.
    change (k_cache k) with (k_cache k') in *. change (k_held k) with (k_held k') in *. change (k_new k) with (k_new k') in *. change (k_cache (kalloc k' _)) with (k_cache k').
    clearbody k'. clear - H Hi Ec. subst a. set (a := k_new k').
    pose proof H as HH. destruct H as [h1 h2 h3 h4 h5 h6 h7 h8 h9]. constructor; cbn -[upd]; auto.
    + intros j b. fold a. destruct (Z.eq_dec j i) as [->|N].
      * rewrite upd_same. intros E. injection E as <-. rewrite !upd_same. cbn. repeat split; auto; lia.
      * rewrite upd_other by auto. intros E. destruct (h5 _ _ E) as (A1 & A2 & A3 & A4). fold a in A3. rewrite !upd_other by lia. repeat split; auto; lia.
    + intros b [<-|Hb].
      * fold a. split; [lia|]. rewrite upd_same. cbn. intros j E. injection E as <-. apply upd_same.
      * destruct (h6 _ Hb) as [L E]. fold a in L. fold a. rewrite upd_other by lia. split; [lia|]. intros j Ej. specialize (E _ Ej). rewrite upd_other; auto. intros ->. congruence.
    + intros j b Hj. specialize (h7 _ _ Hj). rewrite upd_other; auto. intros ->. congruence.
    + intros b. unfold view. cbn -[upd]. fold a. destruct (Z.eq_dec b a) as [->|N].
      * rewrite !upd_same. rewrite Z.eqb_refl. reflexivity.
      * rewrite !upd_other by auto. rewrite h9. replace (b =? a) with false by lia. reflexivity.
Qed.

(** ** Every operation *)
Lemma In_remove_neq : forall (a b : Z) l, In b (remove Z.eq_dec a l) <-> In b l /\ b <> a.
Proof. intros. split; [apply in_remove|intros [H N]; apply in_in_remove; auto]. Qed.

Lemma kfree_ok : forall k z a i, RK none k z -> In a (k_held k) -> o_id (k_objs k a) = Some i ->
  exists k1, kfree k a = Ok k1 /\ RK none k1 (mkds (remove Z.eq_dec i (z_live z)) (z_data z)
       (fun b => match z_var z b with Some (VEntry j) => if j =? i then Some (VFreed (z_data z i)) else Some (VEntry j) | v => v end)).
Proof.
  intros k z a i H Hh Eo. unfold kfree. rewrite Eo. eexists. split; [reflexivity|].
  destruct (r_held _ _ _ H _ Hh) as [La Ec]. specialize (Ec _ Eo). destruct (r_cache _ _ _ H _ _ Ec) as (Hi & _ & _ & Ed).
  destruct H as [h1 h2 h3 h4 h5 h6 h7 h8 h9]. constructor; cbn -[upd]; auto.
  - intros j Hj. apply In_remove_neq in Hj as [Hj N]. auto.
  - intros j Hj. apply In_remove_neq in Hj as [Hj N]. auto.
  - intros j b. destruct (Z.eq_dec j i) as [->|N]; [rewrite upd_same; discriminate|]. rewrite upd_other by auto. intros E.
    destruct (h5 _ _ E) as (A1 & A2 & A3 & A4). rewrite upd_other by congruence. repeat split; auto. apply In_remove_neq. auto.
  - intros b Hb. destruct (h6 _ Hb) as [L E]. split; auto. intros j. destruct (Z.eq_dec b a) as [->|N]; [rewrite upd_same; discriminate|].
    rewrite upd_other by auto. intros Ej. specialize (E _ Ej). rewrite upd_other; auto. intros ->. congruence.
  - intros j b Hj. apply In_adel in Hj as [Hj N]. cbn in N. rewrite upd_other by auto. auto.
  - intros j Hj _ Hm. apply In_remove_neq in Hj as [Hj N]. apply h8; auto. intros B. apply Hm. apply In_akeys_adel. auto.
  - intros b. rewrite h9. unfold view. cbn -[upd]. destruct (existsb (Z.eqb b) (k_held k)) eqn:B; auto. apply existsb_In in B.
    destruct (Z.eq_dec b a) as [->|N].
    + rewrite upd_same, Eo. cbn. rewrite Z.eqb_refl, Ed. auto.
    + rewrite upd_other by auto. destruct (o_id (k_objs k b)) as [j|] eqn:Ej; auto. destruct (j =? i) eqn:Bj; auto.
      destruct (h6 _ B) as [_ E]. specialize (E _ Ej). assert (j = i) by lia. subst j. congruence.
Qed.

Lemma kset_freed_ok : forall k z a b off d, RK none k z -> In a (k_held k) -> o_id (k_objs k a) = None -> z_var z a = Some (VFreed b) ->
  exists k1, kset_field k a off d = Ok k1 /\ RK none k1 (mkds (z_live z) (z_data z) (upd (z_var z) a (Some (VFreed (splice off d b))))).
Proof.
  intros k z a b off d H Hh Eo Ev. unfold kset_field, kmark. cbn -[upd kflush zlen]. rewrite upd_same. cbn -[upd kflush zlen].
  rewrite Eo, (r_rw _ _ _ H). eexists. split; [reflexivity|].
  assert (Eb : b = o_data (k_objs k a)). { rewrite (r_var _ _ _ H) in Ev. unfold view in Ev. rewrite Eo in Ev. destruct (existsb _ _); congruence. }
  destruct H as [h1 h2 h3 h4 h5 h6 h7 h8 h9]. constructor; cbn -[upd]; auto.
  - intros i c E. destruct (h5 _ _ E) as (A1 & A2 & A3 & A4). rewrite upd_other by congruence. auto.
  - intros c Hc. destruct (h6 _ Hc) as [L E]. split; auto. intros i. destruct (Z.eq_dec c a) as [->|N]; [rewrite upd_same; discriminate|]. rewrite upd_other; auto.
  - intros c. unfold view. cbn -[upd]. destruct (Z.eq_dec c a) as [->|N].
    + rewrite !upd_same. cbn. apply existsb_In in Hh. rewrite Hh, Eb. auto.
    + rewrite !upd_other by auto. rewrite h9. auto.
Qed.

Lemma slot_write_other : forall s sid off d i, geo s -> 0 <= sid -> ~ In sid (dir_chain s) -> 0 <= off -> off + zlen d <= ss s -> in_dir (ss s) (dir_chain s) i ->
  slot (file (write_at s sid off d)) (ss s) (dir_chain s) i = slot (file s) (ss s) (dir_chain s) i.
Proof.
  intros s sid off d i G Hs Hn Ho Hd Hi. destruct (write_at_ok s sid off d (g_cache _ G) Hs Ho Hd) as (_ & _ & HB).
  apply slot_ext. intros k Hk. rewrite HB.
  destruct (spos_sector (ss s) (dir_chain s) i k (g_min _ G) (g_mod _ G) Hi Hk) as (y & r & Hy & Hr & E). rewrite E.
  replace (((sid + 1) * ss s + off <=? (y + 1) * ss s + r) && ((y + 1) * ss s + r <? (sid + 1) * ss s + off + zlen d)) with false; auto.
  symmetry. apply andb_false_iff. assert (y <> sid) by congruence. pose proof (g_min _ G). destruct (Z.lt_ge_cases y sid); [left|right]; nia.
Qed.

Lemma view_held : forall k z a, RK none k z -> knows k a = true -> In a (k_held k) /\
  z_var z a = Some (match o_id (k_objs k a) with Some i => VEntry i | None => VFreed (o_data (k_objs k a)) end).
Proof. intros k z a H Hk. rewrite (r_var _ _ _ H). unfold view. unfold knows in Hk. rewrite Hk. split; auto. apply existsb_In. auto. Qed.
Lemma view_unheld : forall k z a, RK none k z -> knows k a = false -> z_var z a = None.
Proof. intros k z a H Hk. rewrite (r_var _ _ _ H). unfold view. unfold knows in Hk. rewrite Hk. auto. Qed.

Theorem kstep_refines : forall k z o, RK none k z ->
  exists k1 v z1, kstep k (z_live z) o = Ok (k1, z_live z1, v) /\ zstep z o v z1 /\ RK none k1 z1.
Proof.
  intros k z o H. unfold kstep. destruct (klegal k (z_live z) o) eqn:L.
  2:{ exists k, DIllegal, z. split; auto. split; auto. constructor. destruct o; cbn in *; auto.
      - intros B. apply existsb_In in B. congruence.
      - eapply view_unheld; eauto.
      - apply andb_false_iff in L as [L|L]; [left; eapply view_unheld; eauto|right]. unfold field_b in L. cbn in L. lia.
      - intros i E. destruct (knows k a) eqn:B; cbn in L.
        + destruct (view_held k z a H B) as [_ V]. rewrite V in E. destruct (o_id (k_objs k a)); discriminate.
        + rewrite (view_unheld k z a H B) in E. discriminate.
      - eapply view_unheld; eauto.
      - discriminate. }
  pose proof (r_geo _ _ _ H) as G.
  destruct o as [i|a|a off d|i us|a|a|a| |sid|sid off d|sid]; cbn -[in_dir_b] in L; cbn [kcall].
  - apply existsb_In in L. destruct (kaccess_ok k z i H L) as (k1 & a & E & Ev & H1). rewrite E. cbn [bind].
    do 3 eexists. split; [|split; [|exact H1]]; [reflexivity|]. apply Z_access; auto.
  - destruct (view_held k z a H L) as [Hh Hv]. do 3 eexists. split; [reflexivity|]. split; [|exact H].
    destruct (o_id (k_objs k a)) as [i|] eqn:Eo.
    + destruct (r_held _ _ _ H _ Hh) as [_ Ec]. destruct (r_cache _ _ _ H _ _ (Ec _ Eo)) as (_ & _ & _ & Ed). rewrite Ed. apply (Z_get z a (VEntry i)). auto.
    + apply (Z_get z a (VFreed (o_data (k_objs k a)))). auto.
  - apply andb_prop in L as [L F]. unfold field_b in F. cbn in F. destruct (view_held k z a H L) as [Hh Hv]. destruct (o_id (k_objs k a)) as [i|] eqn:Eo.
    + destruct (r_held _ _ _ H _ Hh) as [_ Ec]. specialize (Ec _ Eo).
      destruct (kset_field_ok k z a i off d) as (k1 & E1 & H1 & _); auto; try lia. { eapply RK_weak; [|eauto]. intros ? []. }
      rewrite E1. cbn [bind]. do 3 eexists. split; [|split; [|exact H1]]; [reflexivity|]. apply Z_set. auto.
    + destruct (kset_freed_ok k z a (o_data (k_objs k a)) off d) as (k1 & E1 & H1); auto. rewrite E1. cbn [bind].
      do 3 eexists. split; [|split; [|exact H1]]; [reflexivity|]. apply Z_set_freed. auto.
  - apply andb_prop in L as [L L1]. apply andb_prop in L as [L L2]. apply andb_prop in L as [L3 L4].
    assert (Hi : ~ In i (z_live z)). { intros B. apply existsb_In in B. rewrite B in L3. discriminate. }
    destruct (kcreate_ok k z i us H Hi) as (k1 & E1 & H1); auto.
    { unfold in_dir_b in L4. unfold in_dir. lia. } { intros ->. discriminate. }
    rewrite E1. cbn [bind]. do 3 eexists. split; [|split; [|exact H1]]; [reflexivity|]. apply Z_create; auto.
    rewrite (r_var _ _ _ H). unfold view. destruct (existsb (Z.eqb (k_new k)) (k_held k)) eqn:B; auto. apply existsb_In in B. destruct (r_held _ _ _ H _ B). lia.
  - apply andb_prop in L as [L L1]. destruct (view_held k z a H L) as [Hh Hv]. destruct (o_id (k_objs k a)) as [i|] eqn:Eo; [|discriminate].
    destruct (kfree_ok k z a i H Hh Eo) as (k1 & E1 & H1). rewrite E1. cbn [bind].
    do 3 eexists. split; [|split; [|exact H1]]; [reflexivity|]. apply Z_free. auto.
  - destruct (view_held k z a H L) as [Hh Hv]. exists (kset_held k (remove Z.eq_dec a (k_held k))), DOk, (mkds (z_live z) (z_data z) (upd (z_var z) a None)).
    split; [reflexivity|]. split; [eapply Z_drop; eauto|].
    destruct H as [h1 h2 h3 h4 h5 h6 h7 h8 h9]. constructor; cbn -[upd]; auto.
    + intros b Hb. apply In_remove_neq in Hb as [Hb N]. auto.
    + intros b. unfold view. cbn -[upd]. destruct (Z.eq_dec b a) as [->|N].
      * rewrite upd_same. destruct (existsb _ _) eqn:B; auto. apply existsb_In in B. apply In_remove_neq in B. tauto.
      * rewrite upd_other by auto. rewrite h9. unfold view. destruct (existsb (Z.eqb b) (k_held k)) eqn:B.
        -- apply existsb_In in B. rewrite (proj2 (existsb_In b (remove Z.eq_dec a (k_held k)))); auto. apply In_remove_neq. auto.
        -- destruct (existsb _ (remove _ _ _)) eqn:B'; auto. apply existsb_In in B'. apply In_remove_neq in B' as [B' _]. apply existsb_In in B'. congruence.
  - exists (kcollect k a), DOk, z. split; [reflexivity|]. split; [constructor|]. apply negb_true_iff in L. unfold held_b in L. apply orb_false_iff in L as [L1 L2].
    assert (Hh : ~ In a (k_held k)). { intros B. apply existsb_In in B. congruence. }
    assert (Hm : forall i b, In (i, b) (k_mod k) -> b <> a).
    { intros i b Hi ->. assert (existsb (fun p => snd p =? a) (k_mod k) = true); [|congruence]. apply existsb_exists. exists (i, a). split; auto. cbn. lia. }
    destruct H as [h1 h2 h3 h4 h5 h6 h7 h8 h9]. constructor; cbn; auto.
    + intros i b E. apply h5. destruct (k_cache k i) as [c|]; [|discriminate]. destruct (c =? a); congruence.
    + intros b Hb. destruct (h6 _ Hb) as [A B]. split; auto. intros i Ei. rewrite (B _ Ei). replace (b =? a) with false; auto.
      assert (b <> a) by congruence. lia.
    + intros i b Hi. rewrite (h7 _ _ Hi). specialize (Hm _ _ Hi). replace (b =? a) with false by lia. auto.
  - destruct (kflush_ok k z none H) as (k1 & E1 & H1); [intros ? []|]. rewrite E1. cbn [bind].
    exists k1, DOk, z. split; auto. split; auto. constructor.
  - apply andb_prop in L as [L1 L2]. exists (kset_s k (set_dir (k_s k) (dir_chain (k_s k) ++ [sid]) (dir_cnt (k_s k) + 1) (dir_free (k_s k)))), DOk, z. split; [reflexivity|]. split; [constructor|].
    assert (Hn : ~ In sid (dir_chain (k_s k))). { intros B. apply existsb_In in B. rewrite B in L2. discriminate. }
    destruct H as [h1 h2 h3 h4 h5 h6 h7 h8 h9]. destruct h1 as [g1 g2 g3 g4 g5]. constructor; cbn; auto.
    + constructor; cbn; auto.
      * apply NoDup_app_iff. repeat split; auto; [repeat constructor; intros []|]. intros y Hy [<-|[]]. auto.
      * intros y Hy. apply in_app_or in Hy as [Hy|[<-|[]]]; auto. lia.
    + intros i Hi. apply in_dir_app; auto.
    + intros i Hi Hx Hm. rewrite <- (h8 i Hi Hx Hm). apply slot_ext. intros j Hj. rewrite spos_app; auto.
  - do 3 (apply andb_prop in L as [L ?]). exists (kset_s k (write_at (k_s k) sid off d)), DOk, z. split; [reflexivity|]. split; [constructor|].
    assert (Hn : ~ In sid (dir_chain (k_s k))). { intros B. apply existsb_In in B. rewrite B in H2. discriminate. }
    destruct (write_at_ok (k_s k) sid off d (g_cache _ G)) as (F & C & _); try lia. apply RK_file; auto.
    intros i Hi. apply slot_write_other; auto; lia.
  - destruct (read_sector_ok (k_s k) sid (g_cache _ G)) as (s1 & E1 & C1 & HC1); try lia. { pose proof (g_min _ G). lia. }
    rewrite E1. cbn [fst]. exists (kset_s k s1), DOk, z. split; [reflexivity|]. split; [constructor|]. apply RK_file; auto. apply CacheOnly_FileOnly; auto. intros. rewrite C1. auto.
Qed.

Theorem krun_refines : forall ops k z, RK none k z ->
  exists k1 vs z1, krun k (z_live z) ops = Ok (k1, z_live z1, vs) /\ zruns z ops vs z1 /\ RK none k1 z1.
Proof.
  induction ops as [|o ops IH]; intros k z H; cbn [krun].
  - exists k, [], z. split; auto. split; auto. constructor.
  - destruct (kstep_refines k z o H) as (k1 & v & z1 & E1 & S1 & H1). rewrite E1. cbn [bind].
    destruct (IH k1 z1 H1) as (k2 & vs & z2 & E2 & S2 & H2). rewrite E2. cbn [bind]. exists k2, (v :: vs), z2. split; auto. split; auto. econstructor; eauto.
Qed.
