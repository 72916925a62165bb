(** C28, C29, C32, C35, C36: the byte formats of objects and the generated names. *)
From Verif Require Import Base BaseFacts Codec CodecFacts Text TextFacts TypesModel TypesFacts ObjModel.
From Coq Require Import ZArith List Bool Lia String.
Import ListNotations.
Open Scope Z_scope.
Notation length := List.length.

Lemma pack_ok : forall n v d, pack_u n v = Ok d -> 0 <= v < 256 ^ Z.of_nat n /\ d = le_bytes n v.
Proof. intros. apply pack_u_Ok. auto. Qed.

Lemma pack_total : forall n v, 0 <= v < 256 ^ Z.of_nat n -> pack_u n v = Ok (le_bytes n v).
Proof. intros. apply pack_u_Ok. auto. Qed.

Lemma cat_map_Ok : forall A (f : A -> result (list Z)) l d, cat_map f l = Ok d ->
  forall x, In x l -> exists e, f x = Ok e.
Proof.
  intros A f. induction l as [|y l IH]; intros d H x I; [destruct I|]. cbn in H.
  destruct (f y) eqn:E; [|discriminate]. cbn in H. destruct (cat_map f l) eqn:F; [|discriminate]. destruct I as [->|I]; eauto.
Qed.

Lemma cat_map_total : forall A (f : A -> result (list Z)) g l, (forall x, In x l -> f x = Ok (g x)) -> cat_map f l = Ok (flat_map g l).
Proof.
  intros A f g. induction l as [|y l IH]; intros H; cbn; auto. rewrite H by (left; auto). cbn. rewrite IH by (intros; apply H; right; auto). auto.
Qed.

(** inversion of a chain of packs *)
Ltac unpack H :=
  repeat match type of H with
  | bind (pack_u ?n ?v) _ = Ok _ => let E := fresh "P" in destruct (pack_u n v) eqn:E; cbn [bind] in H; [apply pack_ok in E; destruct E as [E ->]|discriminate]
  end.

Lemma Ok_inj : forall A (a b : A), Ok a = Ok b -> a = b.
Proof. intros A a b H. injection H; auto. Qed.
Ltac reads := repeat (rewrite rd_u_app by auto; cbn [bind]).

(** ** C28, C29 *)

Definition entry_ok (p : pentry) : Prop := let '(pid, format, data) := p in
  0 <= pid < 65536 /\ 0 <= format < 65536 /\ exists d, data = Some d /\ zlen d < 65536.
Definition head (p : pentry) : list Z := let '(pid, format, data) := p in
  le_bytes 2 pid ++ le_bytes 2 format ++ le_bytes 2 (zlen (entry_data p)).

Lemma entry_head_ok : forall p, entry_ok p -> entry_head p = Ok (head p).
Proof.
  intros [[pid f] data] (H1 & H2 & d & -> & H3). unfold entry_head, head, entry_data. cbn [snd]. pose proof (zlen_nonneg _ d).
  rewrite !pack_total by (cbn; lia). cbn [bind]. reflexivity.
Qed.
Lemma entry_head_inv : forall p e, entry_head p = Ok e -> entry_ok p.
Proof.
  intros [[pid f] [d|]] e H; [|discriminate]. unfold entry_head in H. unpack H. cbn in P, P0, P1. split; [lia|]. split; [lia|]. exists d. split; auto. lia.
Qed.

(** Saving succeeds exactly when every field fits; otherwise it raises and the stream keeps what it had. *)
Theorem C29_refuses : forall stream ps,
  (zlen ps < 65536 /\ Forall entry_ok ps -> snd (write_properties stream ps) = Ok tt) /\
  (~ (zlen ps < 65536 /\ Forall entry_ok ps) ->
     exists e, write_properties stream ps = (stream, Err e) /\ (e = StructError \/ e = AssertionError)).
Proof.
  intros stream ps. unfold write_properties. split.
  - intros [Hn H]. unfold encode_properties. pose proof (zlen_nonneg _ ps). rewrite !pack_total by (cbn; lia). cbn [bind].
    rewrite (cat_map_total _ _ head). { reflexivity. } intros x Hx. apply entry_head_ok. rewrite Forall_forall in H. auto.
  - intros H. assert (G : exists e, encode_properties ps = Err e /\ (e = StructError \/ e = AssertionError)).
    2:{ destruct G as (e & -> & He). eauto. }
    unfold encode_properties. rewrite (pack_total 1 76), (pack_total 1 32) by (cbn; lia). cbn [bind].
    destruct (pack_u 2 (zlen ps)) eqn:E.
    2:{ unfold pack_u in E. destruct (_ && _) in E; [discriminate|]. injection E as <-. cbn. eauto. }
    apply pack_ok in E. destruct E as [E ->]. cbn [bind]. assert (HF : ~ Forall entry_ok ps) by (intros C; apply H; split; auto; cbn in E; lia).
    clear H E. induction ps as [|p ps IH]; [exfalso; apply HF; constructor|]. cbn [cat_map].
    destruct (entry_head p) as [a|e] eqn:Ep.
    + cbn [bind]. apply entry_head_inv in Ep. destruct IH as (e & He & Hk). { intros C. apply HF. constructor; auto. }
      destruct (cat_map entry_head ps); cbn [bind] in *; [discriminate|]. injection He as <-. eauto.
    + cbn [bind]. exists e. split; auto. destruct p as [[pid f] [d|]]; cbn in Ep; [|injection Ep as <-; auto].
      unfold pack_u in Ep. repeat (match type of Ep with context [if ?b then _ else _] => destruct b; cbn [bind] in Ep; try discriminate end); injection Ep as <-; auto.
Qed.

Lemma u16_array_heads : forall l, (forall p, In p l -> entry_ok p) -> 
  u16_array (flat_map head l) = Ok (flat_map (fun p : pentry => [fst (fst p); snd (fst p); zlen (entry_data p)]) l).
Proof.
  induction l as [|[[pid f] data] l IH]; intros H; auto. cbn [flat_map].
  destruct (H (pid, f, data)) as (H1 & H2 & d & -> & H3); [left; auto|].
  assert (E : head (pid, f, Some d) = [pid mod 256; (pid / 256) mod 256; f mod 256; (f / 256) mod 256; zlen d mod 256; (zlen d / 256) mod 256]) by reflexivity.
  rewrite E. cbn [app].
  assert (B2 : forall v, 0 <= v < 65536 -> v mod 256 + 256 * ((v / 256) mod 256) = v) by (intros; lia).
  pose proof (zlen_nonneg _ d). cbn [u16_array]. rewrite IH by (intros; apply H; right; auto). cbn [bind]. unfold entry_data; cbn [snd fst app].
  rewrite !B2 by lia. auto.
Qed.

Definition shown (p : pentry) : Z * (Z * list Z) := (fst (fst p), (snd (fst p), entry_data p)).

Lemma read_entries_ok : forall l pre acc post, Forall (fun p : pentry => In (snd (fst p)) formats) l ->
  NoDup (map fst (acc ++ map shown l)) ->
  forall props, props = flat_map (fun p : pentry => [fst (fst p); snd (fst p); zlen (entry_data p)]) (pre ++ l) ->
  read_entries (length l) (zlen pre) props (flat_map entry_data l ++ post) acc = Ok (acc ++ map shown l).
Proof.
  induction l as [|p l IH]; intros pre acc post HF HN props Hp; cbn [length read_entries].
  - cbn [map]. rewrite app_nil_r. auto.
  - set (g := fun p : pentry => [fst (fst p); snd (fst p); zlen (entry_data p)]) in *.
    assert (Lpre : zlen (flat_map g pre) = zlen pre * 3).
    { clear. induction pre as [|q pre IHp]; auto. cbn [flat_map]. rewrite zlen_app, IHp, zlen_cons. change (zlen (g q)) with 3. lia. }
    assert (N : forall k x, znth (g p) k = Some x -> znth props (zlen pre * 3 + k) = Some x).
    { intros k x Hk. pose proof (znth_Some _ _ _ _ Hk). rewrite Hp, flat_map_app. cbn [flat_map]. rewrite znth_app2 by lia. rewrite Lpre. replace (zlen pre * 3 + k - zlen pre * 3) with k by lia. rewrite znth_app1 by lia. auto. }
    pose proof (N 0 _ eq_refl) as N0. pose proof (N 1 _ eq_refl) as N1. pose proof (N 2 _ eq_refl) as N2. rewrite Z.add_0_r in N0. rewrite N0, N1, N2.
    inversion HF as [|? ? Hf HF']; subst. unfold rd. cbn [flat_map]. rewrite <- app_assoc.
    rewrite ztake_app_exact, zdrop_app_exact.
    assert (Hex : existsb (Z.eqb (snd (fst p))) formats = true) by (apply existsb_exists; exists (snd (fst p)); split; auto; apply Z.eqb_refl). rewrite Hex.
    cbn [map] in HN. rewrite dict_set_new.
    2:{ intros; apply Z.eqb_eq. }
    2:{ rewrite map_app in HN. cbn [map] in HN. apply NoDup_remove_2 in HN. intros C. apply HN. apply in_or_app. auto. }
    replace (zlen pre + 1) with (zlen (pre ++ [p])) by (rewrite zlen_app; reflexivity).
    rewrite (IH (pre ++ [p])); auto.
    + rewrite <- app_assoc. auto.
    + rewrite <- app_assoc. auto.
    + rewrite <- app_assoc. auto.
Qed.

(** Ids, formats and values come back, in the same order. *)
Theorem C28_roundtrip : forall stream ps d, write_properties stream ps = (d, Ok tt) ->
  NoDup (map (fun p : pentry => fst (fst p)) ps) -> Forall (fun p : pentry => In (snd (fst p)) formats) ps ->
  exists es, read_properties d = Ok (32, es) /\ map (fun e => (fst e, fst (snd e), Some (snd (snd e)))) es = ps.
Proof.
  intros stream ps d H HN HF. unfold write_properties in H. destruct (encode_properties ps) as [d'|] eqn:E; [|discriminate]. injection H as <-.
  assert (Hok : zlen ps < 65536 /\ Forall entry_ok ps).
  { unfold encode_properties in E. rewrite (pack_total 1 76), (pack_total 1 32) in E by (cbn; lia). cbn [bind] in E. unpack E. destruct (cat_map entry_head ps) eqn:C; [|discriminate].
    split; [cbn in P; lia|]. rewrite Forall_forall. intros x Hx. destruct (cat_map_Ok _ _ _ _ C x Hx) as (e & He). eapply entry_head_inv; eauto. }
  destruct Hok as [Hn Hok]. rewrite Forall_forall in Hok. unfold encode_properties in E. pose proof (zlen_nonneg _ ps) as H0.
  rewrite !pack_total in E by (cbn; lia). cbn [bind] in E. rewrite (cat_map_total _ _ head) in E by (intros; apply entry_head_ok; auto). cbn [bind] in E. injection E as <-.
  exists (map shown ps). split.
  - unfold read_properties, rd. change (le_bytes 1 76) with [76]. change (le_bytes 1 32) with [32]. cbn [le_bytes app].
    set (rest := flat_map head ps ++ flat_map entry_data ps). set (b0 := zlen ps mod 256). set (b1 := (zlen ps / 256) mod 256).
    assert (T1 : ztake 4 (76 :: 32 :: b0 :: b1 :: rest) = [76; 32; b0; b1]) by apply (ztake_app_exact _ [76; 32; b0; b1] rest).
    assert (T2 : zdrop 4 (76 :: 32 :: b0 :: b1 :: rest) = rest) by apply (zdrop_app_exact _ [76; 32; b0; b1] rest).
    change (76 mod 256) with 76; change (32 mod 256) with 32. rewrite T1, T2. change (zlen [76; 32; b0; b1] =? 4) with true. cbn iota.
    cbn [nth]. change (76 =? 76) with true. cbn iota. replace (b0 + 256 * b1) with (zlen ps) by (unfold b0, b1; lia).
    assert (L6 : 6 * zlen ps = zlen (flat_map head ps)).
    { clear. induction ps as [|[[a b] c] ps IH]; auto. cbn [flat_map]. rewrite zlen_app, zlen_cons, <- IH. unfold head. rewrite !zlen_app, !zlen_le_bytes. lia. }
    rewrite L6. unfold rest. rewrite ztake_app_exact, zdrop_app_exact. rewrite u16_array_heads by auto. cbn [bind].
    replace (Z.to_nat (zlen ps)) with (length ps) by (unfold zlen; lia).
    rewrite <- (app_nil_r (flat_map entry_data ps)).
    change 0 with (zlen (@nil pentry)). rewrite read_entries_ok; auto. cbn [app]. rewrite map_map. exact HN.
  - rewrite map_map. clear - Hok. rewrite <- (map_id ps) at 2. apply map_ext_in. intros [[pid f] data] Hp. destruct (Hok _ Hp) as (_ & _ & d & -> & _). reflexivity.
Qed.

Example C28_case : exists d, write_properties [9;9] [(1, 130, Some [1;2;3]); (32769, 34, Some [])] = (d, Ok tt) /\
  read_properties d = Ok (32, [(1, (130, [1;2;3])); (32769, (34, []))]).
Proof. eexists. split; reflexivity. Qed.
Example C29_case : forall big : list Z, zlen big = 65536 ->
  ~ (zlen [(1, 130, Some big)] < 65536 /\ Forall entry_ok [(1, 130, Some big)]) /\
  write_properties [9] [(1, 130, Some big)] = ([9], Err StructError).
Proof.
  intros big L. split.
  - intros [_ H]. apply Forall_inv in H. destruct H as (_ & _ & d & E & L'). injection E as <-. lia.
  - unfold write_properties, encode_properties, cat_map, entry_head. rewrite L. reflexivity.
Qed.

(** ** C32 *)

Lemma rd_many_app : forall k l post, Forall (fun v => 0 <= v < 256 ^ Z.of_nat k) l ->
  rd_many k (length l) (flat_map (le_bytes k) l ++ post) = Ok (l, post).
Proof.
  induction l as [|v l IH]; intros post H; auto. inversion H; subst. cbn [length rd_many flat_map]. rewrite <- app_assoc, rd_u_app by auto. cbn [bind]. rewrite IH by auto. auto.
Qed.
Lemma packs_range : forall k l d, cat_map (pack_u k) l = Ok d -> Forall (fun v => 0 <= v < 256 ^ Z.of_nat k) l /\ d = flat_map (le_bytes k) l.
Proof.
  induction l as [|v l IH]; intros d H; cbn in H; [injection H as <-; auto|]. unpack H. destruct (cat_map (pack_u k) l) eqn:E; [|discriminate]. cbn in H. injection H as <-.
  destruct (IH _ eq_refl) as [A ->]. split; [constructor; auto|auto].
Qed.

(** Whatever the writer accepts, the reader gives back. *)
Theorem C32_vector : forall next last refs d, vec_write next last refs = Ok d -> vec_read d = Ok (next, last, refs).
Proof.
  intros next last refs d H. unfold vec_write in H. unpack H. destruct (cat_map (pack_u 4) refs) eqn:E; [|discriminate]. cbn [bind] in H. apply Ok_inj in H; subst d.
  apply packs_range in E. destruct E as [E ->]. unfold vec_read. reads. replace (Z.to_nat (zlen refs)) with (length refs) by (unfold zlen; lia).
  rewrite <- (app_nil_r (flat_map (le_bytes 4) refs)), rd_many_app by auto. auto.
Qed.

(** ... and it accepts everything that fits 32 bits. *)
Theorem C32_vector_total : forall next last refs, 0 <= next < 2 ^ 32 -> 0 <= last < 2 ^ 32 -> zlen refs < 2 ^ 32 -> Forall (fun k => 0 <= k < 2 ^ 32) refs ->
  exists d, vec_write next last refs = Ok d.
Proof.
  intros next last refs H1 H2 H3 H4. unfold vec_write. pose proof (zlen_nonneg _ refs). rewrite !pack_total by (change (256 ^ Z.of_nat 4) with (2 ^ 32); lia). cbn [bind].
  rewrite (cat_map_total _ _ (le_bytes 4)). { cbn [bind]. eauto. } intros x Hx. apply pack_total. rewrite Forall_forall in H4. apply H4 in Hx. auto.
Qed.

Lemma set_items_ok : forall size refs acc, Forall (fun kl => zlen (fst kl) = size /\ 0 <= snd kl < 2 ^ 32) refs -> NoDup (map fst (acc ++ refs)) ->
  set_items (length refs) size (flat_map (fun kl => le_bytes 4 (snd kl) ++ le_bytes 4 1 ++ fst kl) refs) acc = Ok (acc ++ refs).
Proof.
  intros size. induction refs as [|[k l] refs IH]; intros acc H HN; [cbn; rewrite app_nil_r; auto|]. inversion H as [|? ? [H1 H2] Hr]; subst. cbn [fst snd] in *. cbn [length set_items flat_map fst snd].
  rewrite <- !app_assoc, rd_u_app by (change (256 ^ Z.of_nat 4) with (2 ^ 32); lia). cbn [bind]. rewrite rd_u_app by (cbn; lia). cbn [bind]. unfold rd. rewrite ztake_app_exact, zdrop_app_exact.
  change (1 =? 1) with true. cbn iota. rewrite dict_set_new.
  - rewrite IH; auto. { rewrite <- app_assoc. auto. } rewrite <- app_assoc. auto.
  - apply zlist_eqb_spec.
  - rewrite map_app in HN. cbn [map fst] in HN. apply NoDup_remove_2 in HN. intros C. apply HN. apply in_or_app. auto.
Qed.

(** Keys are of the announced size (16 or 32 bytes) and distinct, as in a dict of AUIDs or MobIDs. *)
Theorem C32_set : forall s d, set_write s = Ok d -> si_size s = 16 \/ si_size s = 32 ->
  Forall (fun kl => zlen (fst kl) = si_size s) (si_refs s) -> NoDup (map fst (si_refs s)) -> set_read d = Ok s.
Proof.
  intros [next last pid size refs] d H Hs Hk HN. cbn [si_size si_refs] in *. unfold set_write in H. cbn [si_next si_last si_pid si_size si_refs] in H. unpack H.
  destruct (cat_map _ refs) as [l|] eqn:E; [|discriminate]. cbn [bind] in H. apply Ok_inj in H; subst d.
  assert (HR : Forall (fun kl : list Z * Z => zlen (fst kl) = size /\ 0 <= snd kl < 2 ^ 32) refs).
  { rewrite Forall_forall in *. intros x Hx. split; auto. destruct (cat_map_Ok _ _ _ _ E x Hx) as (e & He). unpack He. change (256 ^ Z.of_nat 4) with (2 ^ 32) in *. auto. }
  assert (El : l = flat_map (fun kl => le_bytes 4 (snd kl) ++ le_bytes 4 1 ++ fst kl) refs).
  { rewrite (cat_map_total _ _ (fun kl => le_bytes 4 (snd kl) ++ le_bytes 4 1 ++ fst kl)) in E; [congruence|]. intros x Hx. rewrite Forall_forall in HR. destruct (HR _ Hx).
    rewrite !pack_total by (change (256 ^ Z.of_nat 4) with (2 ^ 32); lia). auto. }
  subst l. unfold set_read. reads. replace ((size =? 16) || (size =? 32)) with true by lia.
  assert (L : zlen (flat_map (fun kl => le_bytes 4 (snd kl) ++ le_bytes 4 1 ++ fst kl) refs) = zlen refs * (8 + size)).
  { clear - HR. induction HR as [|[k l] refs [H1 _] HR IH]; [cbn; lia|]. cbn [flat_map fst snd] in *. rewrite !zlen_app, !zlen_le_bytes, IH, zlen_cons, H1. lia. }
  rewrite L, Z.eqb_refl. replace (Z.to_nat (zlen refs)) with (length refs) by (unfold zlen; lia). rewrite set_items_ok by auto. reflexivity.
Qed.

Lemma weak_items_ok : forall size refs, 0 < size -> Forall (fun k => zlen k = size) refs -> weak_items (length refs) size (List.concat refs) = Ok refs.
Proof.
  intros size. induction refs as [|k refs IH]; intros H0 H; auto. inversion H; subst. cbn [length weak_items List.concat]. unfold rd. rewrite ztake_app_exact, zdrop_app_exact.
  destruct k as [|z k]; [cbn in H0; lia|]. cbn [key_of bind]. rewrite IH by auto. auto.
Qed.
Theorem C32_weak_array : forall index pid size refs d, weaks_write index pid size refs = Ok d -> size = 16 \/ size = 32 ->
  Forall (fun k => zlen k = size) refs -> weaks_read d = Ok (index, pid, size, refs).
Proof.
  intros index pid size refs d H Hs Hk. unfold weaks_write in H. unpack H. apply Ok_inj in H; subst d. unfold weaks_read. reads.
  replace ((size =? 16) || (size =? 32)) with true by lia. replace (Z.to_nat (zlen refs)) with (length refs) by (unfold zlen; lia). rewrite weak_items_ok; auto. lia.
Qed.
Theorem C32_weak_value : forall index pid ref d, weak_encode index pid ref = Ok d -> weak_decode d = Ok (index, pid, zlen ref, ref).
Proof.
  intros index pid ref d H. unfold weak_encode in H. destruct ((zlen ref =? 16) || (zlen ref =? 32)) eqn:E; [|discriminate]. unpack H. apply Ok_inj in H; subst d.
  unfold weak_decode. reads. rewrite E. unfold rd. rewrite ztake_all by lia. destruct ref; [cbn in E; discriminate|]. reflexivity.
Qed.

(** A key of the wrong size is written without a complaint and read back as something else (or not at
    all): the index records the size given by the class, not that of the key. *)
Theorem C32_key_size_refuted : exists s d, set_write s = Ok d /\ NoDup (map fst (si_refs s)) /\ si_size s = 16 /\ set_read d <> Ok s.
Proof.
  exists (SetIndex 2 (2 ^ 32 - 1) 5 16 [(repeat 7 32, 0)]). eexists. split; [reflexivity|]. split; [repeat constructor; auto|]. split; [reflexivity|]. vm_compute. discriminate.
Qed.

Example C32_case : exists d, set_write (SetIndex 7 4294967295 5 16 [(repeat 1 16, 3); (repeat 2 16, 6)]) = Ok d /\ set_read d = Ok (SetIndex 7 4294967295 5 16 [(repeat 1 16, 3); (repeat 2 16, 6)]) /\
  exists e, vec_write 9 4294967295 [0; 8; 3] = Ok e /\ vec_read e = Ok (9, 4294967295, [0; 8; 3]).
Proof. eexists. split; [reflexivity|]. split; [reflexivity|]. eexists. split; reflexivity. Qed.

(** ** C35 *)

Lemma index_of_spec : forall t p i, match index_of p t i with
  | Some k => exists a b, t = a ++ p :: b /\ ~ In p a /\ k = i + zlen a
  | None => ~ In p t end.
Proof.
  induction t as [|q t IH]; intros p i; cbn [index_of]; [auto|]. destruct (zlist_eqb q p) eqn:E.
  - apply zlist_eqb_spec in E. subst. exists [], t. split; auto. split; auto. cbn. lia.
  - assert (q <> p) by (intros ->; rewrite zlist_eqb_refl in E; discriminate). specialize (IH p (i + 1)). destruct (index_of p t (i + 1)).
    + destruct IH as (a & b & -> & Hn & ->). exists (q :: a), b. split; auto. split; [intros [|]; auto|]. rewrite zlen_cons. lia.
    + intros [|]; auto.
Qed.

(** Registering a path: earlier paths keep their index, the path is found at the index returned, no path
    appears twice. *)
Theorem C35_index : forall t p t' i, NoDup t -> weakref_index t p = (t', i) ->
  NoDup t' /\ znth t' i = Some p /\ (forall j q, znth t j = Some q -> znth t' j = Some q) /\
  (forall q, In q t' <-> q = p \/ In q t) /\ (In p t -> t' = t).
Proof.
  intros t p t' i HN H. unfold weakref_index in H. pose proof (index_of_spec t p 0) as S. destruct (index_of p t 0) as [k|].
  - injection H as <- <-. destruct S as (a & b & -> & Hn & ->). split; auto. split.
    { rewrite znth_app2 by lia. replace (0 + zlen a - zlen a) with 0 by lia. unfold znth. rewrite zlen_cons. pose proof (zlen_nonneg _ b). replace ((0 <=? 0) && (0 <? 1 + zlen b)) with true by lia. auto. }
    split; auto. split; auto. intros q. split; auto. intros [->|]; auto. apply in_or_app. right. left. auto.
  - injection H as <- <-. split.
    { apply NoDup_app_iff. split; auto. split; [repeat constructor; auto|]. intros x Hx [->|[]]. auto. }
    split. { rewrite znth_app2 by lia. rewrite Z.sub_diag. reflexivity. }
    split. { intros j q Hj. rewrite znth_app1; auto. apply znth_Some in Hj. lia. }
    split; [|intros; contradiction]. intros q. rewrite in_app_iff. cbn. intuition.
Qed.

(** Any history of registrations: an index once returned for a path is returned for it ever after,
    and for no other path. *)
Fixpoint register (t : list (list Z)) (ps : list (list Z)) : list (list Z) :=
  match ps with [] => t | p :: r => register (fst (weakref_index t p)) r end.
Theorem C35_stable : forall ps t p t1 i, NoDup t -> weakref_index t p = (t1, i) ->
  forall q, snd (weakref_index (register t1 ps) q) = i <-> q = p.
Proof.
  intros ps t p t1 i HN H. destruct (C35_index _ _ _ _ HN H) as (HN1 & Hi & _ & _ & _). clear H HN t.
  assert (G : NoDup (register t1 ps) /\ znth (register t1 ps) i = Some p).
  { revert t1 HN1 Hi. induction ps as [|r ps IH]; intros t1 HN1 Hi; auto. cbn [register]. destruct (weakref_index t1 r) as [t2 j] eqn:E. destruct (C35_index _ _ _ _ HN1 E) as (A & B & C & _). apply IH; auto. }
  destruct G as [GN Gi]. set (t := register t1 ps) in *. intros q. destruct (weakref_index t q) as [t2 j] eqn:E. destruct (C35_index _ _ _ _ GN E) as (A & B & C & D & F). cbn [snd]. split.
  - intros ->. apply C in Gi. congruence.
  - intros ->. rewrite F in * by (eapply znth_In; eauto).
    assert (Q : forall (l : list (list Z)) a b x, NoDup l -> znth l a = Some x -> znth l b = Some x -> a = b).
    { intros l a b x Hl Ha Hb. pose proof (znth_Some _ _ _ _ Ha). pose proof (znth_Some _ _ _ _ Hb). unfold znth in Ha, Hb. destruct (_ && _) in Ha; [|discriminate]. destruct (_ && _) in Hb; [|discriminate].
      assert (Z.to_nat a = Z.to_nat b); [|lia]. apply (proj1 (NoDup_nth_error l) Hl). { apply nth_error_Some. congruence. } congruence. }
    eapply Q; eauto.
Qed.

Lemma table_pids_path : forall p l t acc n, Forall (fun v => 0 < v < 65536) p ->
  table_pids (length p + S n) (flat_map (le_bytes 2) p ++ le_bytes 2 0 ++ l) t acc = table_pids n l (t ++ [acc ++ p]) [].
Proof.
  induction p as [|v p IH]; intros l t acc n H.
  - cbn [length Nat.add flat_map table_pids]. rewrite app_nil_r. change ([] ++ le_bytes 2 0 ++ l) with (le_bytes 2 0 ++ l). rewrite rd_u_app by (cbn; lia). cbn [bind]. auto.
  - inversion H; subst. cbn [length Nat.add flat_map table_pids]. rewrite <- app_assoc, rd_u_app by (change (256 ^ Z.of_nat 2) with 65536; lia). cbn [bind].
    replace (negb (v =? 0)) with true by lia. rewrite IH by auto. rewrite <- app_assoc. auto.
Qed.

(** The saved table is read back identically; it can be saved as long as the counts fit. *)
Theorem C35_table : forall t, Forall (Forall (fun v => 0 < v < 65536)) t ->
  (forall d, table_write t = Ok d -> table_read d = Ok t) /\
  (zlen t < 65536 -> fold_right (fun p n => zlen p + 1 + n) 0 t < 2 ^ 32 -> exists d, table_write t = Ok d).
Proof.
  intros t H.
  assert (E : cat_map (fun p => do x <- cat_map (pack_u 2) p ;; do z <- pack_u 2 0 ;; Ok (x ++ z)) t = Ok (flat_map (fun p => flat_map (le_bytes 2) p ++ le_bytes 2 0) t)).
  { apply cat_map_total. intros p Hp. rewrite Forall_forall in H. specialize (H p Hp). rewrite Forall_forall in H. rewrite (cat_map_total _ _ (le_bytes 2)).
    - cbn [bind]. reflexivity.
    - intros v Hv. apply H in Hv. apply pack_total. change (256 ^ Z.of_nat 2) with 65536. lia. }
  assert (C0 : 0 <= fold_right (fun p n => zlen p + 1 + n) 0 t) by (clear; induction t as [|p t IH]; cbn [fold_right]; [lia|]; pose proof (zlen_nonneg _ p); lia).
  split.
  - intros d Hw. unfold table_write in Hw. rewrite E in Hw. unpack Hw. cbn [bind] in Hw. apply Ok_inj in Hw; subst d. unfold table_read. reads.
    change (76 =? 76) with true. cbn iota. reads.
    assert (G : forall t acc, Forall (Forall (fun v => 0 < v < 65536)) t -> table_pids (Z.to_nat (fold_right (fun p n => zlen p + 1 + n) 0 t)) (flat_map (fun p => flat_map (le_bytes 2) p ++ le_bytes 2 0) t) acc [] = Ok (acc ++ t)).
    { clear. induction t as [|p t IH]; intros acc H; [cbn; rewrite app_nil_r; auto|]. inversion H; subst. cbn [fold_right flat_map].
      assert (C : 0 <= fold_right (fun p n => zlen p + 1 + n) 0 t) by (clear; induction t as [|p t IH]; cbn [fold_right]; [lia|]; pose proof (zlen_nonneg _ p); lia).
      replace (Z.to_nat (zlen p + 1 + fold_right (fun p n => zlen p + 1 + n) 0 t)) with (length p + S (Z.to_nat (fold_right (fun p n => zlen p + 1 + n)%Z 0%Z t)))%nat by (unfold zlen in *; lia).
      rewrite <- app_assoc, table_pids_path by auto. rewrite IH by auto. rewrite <- app_assoc. auto. }
    rewrite G by auto. cbn [bind app]. rewrite Z.eqb_refl. auto.
  - intros H1 H2. unfold table_write. rewrite E. pose proof (zlen_nonneg _ t). rewrite (pack_total 1) by (cbn; lia). rewrite (pack_total 2) by (change (256 ^ Z.of_nat 2) with 65536; lia).
    rewrite (pack_total 4) by (change (256 ^ Z.of_nat 4) with (2 ^ 32); lia). cbn [bind]. eauto.
Qed.
Example C35_case : weakref_index [[1;3];[1;4]] [1;4] = ([[1;3];[1;4]], 1) /\ exists d, table_write [[1;3];[2;6145;6913];[]] = Ok d /\ table_read d = Ok [[1;3];[2;6145;6913];[]].
Proof. split; [reflexivity|]. eexists. split; reflexivity. Qed.

(** ** C36 *)

Lemma hex_str_lower : forall n, 0 <= n -> Forall is_hex_lower (hex_str n).
Proof.
  intros n Hn. unfold hex_str. set (f := S (Z.to_nat (Z.log2 n))). clearbody f. revert n Hn. induction f as [|f IH]; intros n Hn; cbn [hex_go]; [constructor|].
  destruct (n <? 16) eqn:E. { constructor; [|constructor]. apply hex_char_lower. lia. }
  apply Forall_app. split; [apply IH; lia|]. constructor; [|constructor]. apply hex_char_lower. lia.
Qed.
Lemma log2_pow : forall n, 0 <= n -> n < 16 ^ Z.of_nat (S (Z.to_nat (Z.log2 n))).
Proof.
  intros n Hn. destruct (Z.eq_dec n 0) as [->|]; [reflexivity|]. pose proof (Z.log2_spec n ltac:(lia)). pose proof (Z.log2_nonneg n).
  rewrite Nat2Z.inj_succ, Z2Nat.id by lia. apply Z.lt_le_trans with (2 ^ Z.succ (Z.log2 n)); [lia|]. apply Z.pow_le_mono_l. lia.
Qed.
Lemma hex_str_pad : forall w n, (0 < w)%nat -> 0 <= n < 16 ^ Z.of_nat w -> (length (hex_str n) <= w)%nat /\ repeat 48 (w - length (hex_str n)) ++ hex_str n = hexw w n.
Proof. intros w n Hw Hn. unfold hex_str. apply hex_go_pad; auto; [lia|]. apply log2_pow. lia. Qed.
Lemma hex_str_len : forall w n, (0 < w)%nat -> 0 <= n < 16 ^ Z.of_nat w -> 1 <= zlen (hex_str n) <= Z.of_nat w.
Proof.
  intros w n Hw Hn. destruct (hex_str_pad w n Hw Hn) as [L _]. unfold zlen. split; [|lia]. unfold hex_str. cbn [hex_go]. destruct (n <? 16); [cbn; lia|]. rewrite app_length. cbn. lia.
Qed.
Lemma hex_str_inj : forall a b, 0 <= a -> 0 <= b -> hex_str a = hex_str b -> a = b.
Proof.
  intros a b Ha Hb H. set (w := S (Nat.max (Z.to_nat (Z.log2 a)) (Z.to_nat (Z.log2 b)))).
  assert (Ra : 0 <= a < 16 ^ Z.of_nat w). { split; auto. eapply Z.lt_le_trans; [apply log2_pow; auto|]. apply Z.pow_le_mono_r; unfold w; lia. }
  assert (Rb : 0 <= b < 16 ^ Z.of_nat w). { split; auto. eapply Z.lt_le_trans; [apply log2_pow; auto|]. apply Z.pow_le_mono_r; unfold w; lia. }
  destruct (hex_str_pad w a) as [_ Ea]; [unfold w; lia|auto|]. destruct (hex_str_pad w b) as [_ Eb]; [unfold w; lia|auto|].
  assert (E : hexw w a = hexw w b) by (rewrite <- Ea, <- Eb, H; auto). assert (X : int16 (hexw w a) = int16 (hexw w b)) by congruence.
  rewrite !int16_hexw in X by (auto; unfold w; lia). congruence.
Qed.

Lemma squeeze_len : forall name size, 0 <= size -> zlen (squeeze_name name size) = Z.min (zlen name) size.
Proof.
  intros name size H. unfold squeeze_name. destruct (zlen name <=? size) eqn:E; [lia|]. rewrite zlen_map, zlen_zseq by auto. lia.
Qed.

(** A name made for a limit of [size] characters is shorter than the limit, for any property name. *)
Theorem C36_length_partial : forall name pid size, 0 <= pid < 65536 -> 6 <= size -> zlen (mangle_name name pid size) < size.
Proof.
  intros name pid size Hp Hs. unfold mangle_name. assert (L : 1 <= zlen (hex_str pid) <= Z.of_nat 4) by (apply hex_str_len; [lia|change (16 ^ Z.of_nat 4) with 65536; lia]).
  rewrite !zlen_app, squeeze_len by lia. change (zlen [45]) with 1. lia.
Qed.

(** So the two sizes the library uses leave room: a name made for 32 has at most 31 characters, and one
    made for 22 still has at most 31 with " index" or with "{key}" for a 32 bit key appended. *)
Theorem C36_fits_partial : forall name pid k, 0 <= pid < 65536 -> 0 <= k < 2 ^ 32 ->
  zlen (mangle_name name pid 32) <= 31 /\ zlen (index_stream (mangle_name name pid 22)) <= 31 /\
  zlen (element_storage (mangle_name name pid 22) k) <= 31.
Proof.
  intros name pid k Hp Hk. pose proof (C36_length_partial name pid 32 Hp). pose proof (C36_length_partial name pid 22 Hp).
  assert (L : 1 <= zlen (hex_str k) <= Z.of_nat 8) by (apply hex_str_len; [lia|change (16 ^ Z.of_nat 8) with (2 ^ 32); lia]).
  split; [lia|]. unfold index_stream, element_storage. rewrite !zlen_app. change (zlen (codes " index")) with 6. change (zlen [123]) with 1. change (zlen [125]) with 1. lia.
Qed.

Lemma hex_no : forall n c, 0 <= n -> ~ is_hex_lower c -> ~ In c (hex_str n).
Proof. intros n c Hn Hc I. pose proof (hex_str_lower n Hn) as F. rewrite Forall_forall in F. apply Hc. auto. Qed.
Lemma split_last : forall (a b x y : list Z) d, ~ In d x -> ~ In d y -> a ++ [d] ++ x = b ++ [d] ++ y -> x = y /\ a = b.
Proof.
  intros a b x y d Hx Hy H. assert (R : rev x ++ [d] ++ rev a = rev y ++ [d] ++ rev b).
  { apply (f_equal (@rev Z)) in H. rewrite !rev_app_distr in H. cbn [rev app] in H. rewrite <- !app_assoc in H. auto. }
  assert (Hx' : ~ In d (rev x)) by (rewrite <- in_rev; auto). assert (Hy' : ~ In d (rev y)) by (rewrite <- in_rev; auto).
  assert (G : forall p q r s : list Z, ~ In d p -> ~ In d q -> p ++ [d] ++ r = q ++ [d] ++ s -> p = q /\ r = s).
  { induction p as [|h p IH]; intros [|k q] r s Hp Hq E; cbn in *.
    - injection E as ->. auto.
    - injection E as -> _. exfalso. apply Hq. auto.
    - injection E as <- _. exfalso. apply Hp. auto.
    - injection E as -> E. destruct (IH q r s) as [-> ->]; auto. }
  destruct (G _ _ _ _ Hx' Hy' R) as [E1 E2]. split; [rewrite <- (rev_involutive x), E1, rev_involutive|rewrite <- (rev_involutive a), E2, rev_involutive]; auto.
Qed.

(** Different property ids give different names, whatever the property names and sizes. *)
Theorem C36_distinct_partial : forall n1 n2 p1 p2 s1 s2, 0 <= p1 -> 0 <= p2 -> mangle_name n1 p1 s1 = mangle_name n2 p2 s2 -> p1 = p2.
Proof.
  intros n1 n2 p1 p2 s1 s2 H1 H2 H. unfold mangle_name in H. apply (split_last _ _ _ _ 45) in H; auto.
  - apply hex_str_inj; tauto.
  - apply hex_no; auto. unfold is_hex_lower. lia.
  - apply hex_no; auto. unfold is_hex_lower. lia.
Qed.

(** All names one object can generate are different, even in the comparison the directory makes, on
    upper case: the storages of single references and streams, the index streams and the element storages
    of any two properties. [up] stands for the upper case of one character (possibly several characters);
    only its values on the ASCII characters the library appends matter. *)
Inductive gen : Type := GRef (pid : Z) | GIndex (pid : Z) | GElem (pid key : Z).
Definition gen_name (names : Z -> list Z) (g : gen) : list Z :=
  match g with
  | GRef pid => mangle_name (names pid) pid 32
  | GIndex pid => index_stream (mangle_name (names pid) pid 22)
  | GElem pid k => element_storage (mangle_name (names pid) pid 22) k
  end.
Definition gen_ok (g : gen) : Prop :=
  match g with GRef p | GIndex p => 0 <= p | GElem p k => 0 <= p /\ 0 <= k end.
Definition ascii_upper (up : Z -> list Z) : Prop :=
  forall c, 32 <= c < 127 -> up c = [if (97 <=? c) && (c <=? 122) then c - 32 else c].

Section Upper.
  Variable up : Z -> list Z.
  Hypothesis UP : ascii_upper up.
  Lemma up_hex : forall l, Forall is_hex_lower l -> flat_map up l = map (fun c => if 97 <=? c then c - 32 else c) l.
  Proof.
    induction l as [|c l IH]; intros H; auto. inversion H as [|? ? Hc Hl]; subst. cbn [flat_map map]. rewrite UP, IH by (auto; unfold is_hex_lower in *; lia). cbn [app].
    f_equal. unfold is_hex_lower in *. destruct (97 <=? c) eqn:E; cbn [andb]; auto. replace (c <=? 122) with true by lia. auto.
  Qed.
  Definition hexu n := map (fun c => if 97 <=? c then c - 32 else c) (hex_str n).
  Lemma hexu_inj : forall a b, 0 <= a -> 0 <= b -> hexu a = hexu b -> a = b.
  Proof.
    intros a b Ha Hb H. apply hex_str_inj; auto. pose proof (hex_str_lower a Ha) as Fa. pose proof (hex_str_lower b Hb) as Fb. unfold hexu in H.
    revert H Fa Fb. generalize (hex_str a), (hex_str b). induction l as [|x l IH]; intros [|y r] H Fa Fb; try discriminate; auto.
    cbn [map] in H. injection H as Hx Hr. inversion Fa; inversion Fb; subst. f_equal; auto. unfold is_hex_lower in *. destruct (97 <=? x) eqn:?, (97 <=? y) eqn:?; lia.
  Qed.
  Lemma hexu_no : forall n c, 0 <= n -> In c (hexu n) -> 48 <= c <= 57 \/ 65 <= c <= 70.
  Proof.
    intros n c Hn I. unfold hexu in I. apply in_map_iff in I. destruct I as (x & <- & Hx). pose proof (hex_str_lower n Hn) as F. rewrite Forall_forall in F. apply F in Hx. unfold is_hex_lower in Hx. destruct (97 <=? x) eqn:?; lia.
  Qed.
  Lemma hexu_last : forall n d, 0 <= n -> In (last (hexu n) d) (hexu n).
  Proof.
    intros n d Hn. assert (Hne : hexu n <> []).
    { unfold hexu, hex_str. cbn [hex_go]. destruct (n <? 16); [discriminate|]. rewrite map_app. destruct (map _ (hex_go _ _)); discriminate. }
    destruct (exists_last Hne) as (a & x & ->). rewrite last_last. apply in_or_app. right. left. auto.
  Qed.
  Lemma last_suffix : forall (a b : list Z) x d, last (a ++ x :: b) d = last (x :: b) d.
  Proof. induction a as [|y a IH]; intros; auto. cbn [app]. rewrite <- (IH b x d). cbn [last]. destruct (a ++ x :: b) eqn:E; auto. destruct a; discriminate. Qed.
  Lemma up_mangle : forall name pid size, 0 <= pid -> exists pre, flat_map up (mangle_name name pid size) = pre ++ [45] ++ hexu pid.
  Proof.
    intros name pid size Hp. unfold mangle_name. rewrite !flat_map_app, (up_hex (hex_str pid)) by (apply hex_str_lower; auto). cbn [flat_map]. rewrite UP by lia. cbn [app andb]. eexists. reflexivity.
  Qed.
  Lemma up_mangle_inj : forall n1 n2 p1 p2 s1 s2, 0 <= p1 -> 0 <= p2 -> flat_map up (mangle_name n1 p1 s1) = flat_map up (mangle_name n2 p2 s2) -> p1 = p2.
  Proof.
    intros n1 n2 p1 p2 s1 s2 H1 H2 H. destruct (up_mangle n1 p1 s1 H1) as (a & Ea). destruct (up_mangle n2 p2 s2 H2) as (b & Eb). rewrite Ea, Eb in H.
    apply split_last in H. { apply hexu_inj; tauto. } { intros C. apply hexu_no in C; auto. lia. } { intros C. apply hexu_no in C; auto. lia. }
  Qed.
End Upper.

Theorem C36_all_distinct_partial : forall up names g1 g2, ascii_upper up -> gen_ok g1 -> gen_ok g2 ->
  flat_map up (gen_name names g1) = flat_map up (gen_name names g2) -> g1 = g2.
Proof.
  intros up names g1 g2 UP H1 H2 H.
  assert (L : forall g, gen_ok g -> match g with GRef p => In (last (flat_map up (gen_name names g)) 0) (hexu p) | GIndex _ => last (flat_map up (gen_name names g)) 0 = 88 | GElem _ _ => last (flat_map up (gen_name names g)) 0 = 125 end).
  { intros [p|p|p k] G; cbn [gen_name gen_ok] in *.
    - destruct (up_mangle up UP (names p) p 32 G) as (pre & ->). cbn [app]. rewrite last_suffix. pose proof (hexu_last p 0 G) as X. destruct (hexu p) as [|c l]; [destruct X|exact X].
    - unfold index_stream. change (codes " index") with [32; 105; 110; 100; 101; 120]. rewrite flat_map_app. cbn [flat_map]. rewrite !UP by lia. cbn [app]. rewrite last_suffix. reflexivity.
    - unfold element_storage. rewrite !flat_map_app. cbn [flat_map]. rewrite (UP 125) by lia. rewrite !app_assoc. cbn [app]. rewrite app_nil_r. rewrite last_last. reflexivity. }
  pose proof (L g1 H1) as L1. pose proof (L g2 H2) as L2. rewrite H in L1.
  destruct g1 as [p1|p1|p1 k1], g2 as [p2|p2|p2 k2]; cbn [gen_ok] in *;
    try (exfalso; repeat match goal with X : In _ (hexu _) |- _ => apply hexu_no in X; [|tauto] end; lia); cbn [gen_name] in H.
  - f_equal. apply (up_mangle_inj up UP) in H; auto.
  - f_equal. unfold index_stream in H. rewrite !flat_map_app in H. apply app_inv_tail in H. apply (up_mangle_inj up UP) in H; auto.
  - unfold element_storage in H. rewrite !flat_map_app in H. rewrite !(up_hex up UP (hex_str _)) in H by (apply hex_str_lower; tauto). cbn [flat_map] in H. rewrite !UP in H by lia.
    change (if (97 <=? 123) && (123 <=? 122) then 123 - 32 else 123) with 123 in H. rewrite !app_nil_r in H. rewrite !app_assoc in H. apply app_inv_tail in H. rewrite <- !app_assoc in H. apply split_last in H.
    + destruct H as [Hk Hp]. apply hexu_inj in Hk; try tauto. apply (up_mangle_inj up UP) in Hp; try tauto. congruence.
    + intros C. apply hexu_no in C; [lia|tauto].
    + intros C. apply hexu_no in C; [lia|tauto].
Qed.
Example C36_upper_case : ascii_upper (fun c => [if (97 <=? c) && (c <=? 122) then c - 32 else c]) /\
  gen_name (fun _ => codes "Slots") (GElem 17411 26) = codes "Slots-4403{1a}".
Proof. split; [intros c _; auto|vm_compute; reflexivity]. Qed.

(** One caller (properties.py 1423-1439) makes the name of a weak reference vector for a limit of 32
    instead of 22: its " index" stream does not fit an entry name of 32 characters. *)
Theorem C36_weak_vector_refuted : exists name pid, 0 <= pid < 65536 /\ 32 < zlen (index_stream (mangle_name name pid 32)).
Proof. exists (codes "ExtraordinarilyLongPropertyName"), 32769. split; [lia|]. vm_compute. reflexivity. Qed.

Example C36_case : mangle_name (codes "Components") 4097 22 = codes "Components-1001" /\
  mangle_name (codes "AVeryLongPropertyNameIndeed") 4097 22 = codes "AVeryLon-eIndeed-1001".
Proof. split; vm_compute; reflexivity. Qed.

Print Assumptions C28_roundtrip. Print Assumptions C29_refuses.
Print Assumptions C32_vector. Print Assumptions C32_vector_total. Print Assumptions C32_set. Print Assumptions C32_weak_array. Print Assumptions C32_weak_value. Print Assumptions C32_key_size_refuted.
Print Assumptions C35_index. Print Assumptions C35_stable. Print Assumptions C35_table.
Print Assumptions C36_length_partial. Print Assumptions C36_fits_partial. Print Assumptions C36_distinct_partial. Print Assumptions C36_all_distinct_partial. Print Assumptions C36_weak_vector_refuted.
