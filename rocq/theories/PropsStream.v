(** Properties C01-C07, C13, C16 and C27: streams of a compound file as byte arrays, isolation,
    sector ownership, table growth, the sector cache and directory ids. *)
From Verif Require Import Base BaseFacts LRUModel CfbModel ChainSpec ChainProofs TableInv DifatInv CfbInv CfbBytes CfbStream StreamSpec StreamRun StreamInit.
From Coq Require Import ZArith List Bool Lia.
Import ListNotations.
Open Scope Z_scope.

(** what a client sees of a stream: everything read through a new handle *)
Definition stream_bytes (s : cfb) (e : Z) : result (list Z) :=
  do h <- stream_open s e ;; do (_, _, d) <- stream_read s h (-1) ;; Ok d.

(** a state a client can get to: any operations on a newly created file *)
Definition reachable (d : drv) : Prop :=
  exists sector cap f ops vs, (sector = 512 \/ sector = 4096) /\ run (fresh sector cap f) ops = Ok (d, vs).

Lemma reachable_R : forall d, reachable d -> exists a, R a d.
Proof.
  intros d (sector & cap & f & ops & vs & Hs & E). destruct (run_refines ops blank (fresh sector cap f)) as [Ho|(d' & vs' & a' & E' & _ & HR)].
  - apply fresh_R; auto.
  - congruence.
  - exists a'. rewrite E in E'. injection E' as <- _. auto.
Qed.

Lemma R_bytes : forall a d e, R a d -> In e (d_live d) -> stream_bytes (d_cfb d) e = Ok (a_data a e).
Proof.
  intros a d e (E & ch & hw & HI & HD & Hdata & Hh) Hin. pose proof (live_nz _ _ _ HD Hin) as He. unfold stream_bytes.
  rewrite (stream_open_ok _ _ _ _ HI He). cbn [bind]. pose proof (inv_sz _ _ _ HI e He) as Hs.
  destruct (stream_read_ok (d_cfb d) ch hw (mkh e 0 (ch e)) (-1) (proj1 HI)) as (s' & E1 & _); cbn [h_ent h_chain h_pos]; auto; try lia.
  cbn [h_ent h_pos] in E1. rewrite E1. cbn [bind]. rewrite Hdata by auto. unfold content, todo_of. cbn [Z.eqb].
  change (-1 =? -1) with true. cbn iota. rewrite Z.sub_0_r, Z.max_r by lia. reflexivity.
Qed.

(** ** C01 *)

(** Every sequence of calls on a new file behaves as on byte arrays with cursors: it stops with
    Overflow (only when a table would pass 2^32-6 entries), or every value returned is the one
    [astep] prescribes and each stream ends with the prescribed bytes. No other exception, no
    exhausted fuel. *)
Theorem C01_streams_are_byte_arrays : forall sector cap f ops, sector = 512 \/ sector = 4096 ->
  run (fresh sector cap f) ops = Err Overflow \/
  exists d vs a, run (fresh sector cap f) ops = Ok (d, vs) /\ asteps blank ops vs a /\
    forall e, In e (a_live a) -> stream_bytes (d_cfb d) e = Ok (a_data a e).
Proof.
  intros sector cap f ops Hs. destruct (run_refines ops blank (fresh sector cap f) (fresh_R _ _ _ Hs)) as [Ho|(d & vs & a & E & S & HR)]; auto.
  right. exists d, vs, a. split; auto. split; auto. intros e He. apply R_bytes; auto. destruct HR as [<- _]. auto.
Qed.
Print Assumptions C01_streams_are_byte_arrays.

(** the same from any state that satisfies the allocation invariant, with handles already open *)
Theorem C01_streams_are_byte_arrays_from : forall a0 d0 ops, R a0 d0 ->
  run d0 ops = Err Overflow \/
  exists d vs a, run d0 ops = Ok (d, vs) /\ asteps a0 ops vs a /\ R a d /\
    forall e, In e (a_live a) -> stream_bytes (d_cfb d) e = Ok (a_data a e).
Proof.
  intros a0 d0 ops H0. destruct (run_refines ops a0 d0 H0) as [Ho|(d & vs & a & E & S & HR)]; auto.
  right. exists d, vs, a. split; auto. split; auto. split; auto. intros e He. apply R_bytes; auto. destruct HR as [<- _]. auto.
Qed.
Print Assumptions C01_streams_are_byte_arrays_from.

Definition obs_of (r : result (drv * list obs)) : list obs := match r with Ok (_, vs) => vs | Err x => [VErr x] end.

Example C01_case : obs_of (run (fresh 512 513 [])
    [ONew; ONew; OOpen 4; OOpen 5; OWrite 4 [1;2;3]; OWrite 5 [9;9]; OSeek 4 100 FromStart; OWrite 4 [7];
     OSeek 4 (-101) FromHere; ORead 4 4; OSeek 4 97 FromStart; ORead 4 (-1); OSeek 5 0 FromStart; ORead 5 10; OSeek 5 (-3) FromEnd]) =
  [VId 4; VId 5; VUnit; VUnit; VUnit; VUnit; VPos 100; VUnit; VPos 0; VBytes [1;2;3;0]; VPos 97; VBytes [0;0;0;7]; VPos 0; VBytes [9;9]; VErr ValueError].
Proof. vm_compute. reflexivity. Qed.

(** crossing the 4096-byte limit both ways *)
Example C01_case_threshold : obs_of (run (fresh 512 513 [])
    [ONew; OOpen 4; OWrite 4 (repeat 5 4000); OWrite 4 (repeat 6 200); OSeek 4 3998 FromStart; ORead 4 4;
     OTrunc 4 (Some 3999); OSeek 4 3997 FromStart; ORead 4 (-1)]) =
  [VId 4; VUnit; VUnit; VUnit; VPos 3998; VBytes [5;5;6;6]; VUnit; VPos 3997; VBytes [5;5]].
Proof. vm_compute. reflexivity. Qed.

(** ** C02 *)
Lemma asteps_isolated : forall a ops vs a' j, asteps a ops vs a' -> (forall o, In o ops -> target o <> Some j) -> In j (a_live a) ->
  a_data a' j = a_data a j /\ In j (a_live a').
Proof.
  intros a ops vs a' j H. induction H as [|a o v a1 ops vs a2 H1 H2 IH]; intros T L; auto.
  destruct (astep_isolated _ _ _ _ j H1) as [E1 L1]; auto. { apply T. left. auto. }
  destruct IH as [E2 L2]; auto. { intros o' Ho. apply T. right. auto. } split; auto. congruence.
Qed.

Theorem C02_streams_isolated : forall d0 ops d1 vs j, reachable d0 -> In j (d_live d0) ->
  (forall o, In o ops -> target o <> Some j) -> run d0 ops = Ok (d1, vs) ->
  exists c, stream_bytes (d_cfb d0) j = Ok c /\ stream_bytes (d_cfb d1) j = Ok c.
Proof.
  intros d0 ops d1 vs j Hr Hj T E. destruct (reachable_R _ Hr) as [a0 H0].
  destruct (run_refines ops a0 d0 H0) as [Ho|(d & vs' & a & E' & S & HR)]; [congruence|]. rewrite E in E'. injection E' as <- <-.
  assert (Hj0 : In j (a_live a0)) by (destruct H0 as [-> _]; auto).
  destruct (asteps_isolated _ _ _ _ j S T Hj0) as [Ed Hl].
  exists (a_data a0 j). split; [apply R_bytes; auto|]. rewrite <- Ed. apply R_bytes; auto. destruct HR as [<- _]. auto.
Qed.
Print Assumptions C02_streams_isolated.

Definition bytes_after (ops : list op) (e : Z) : result (list Z) :=
  do (d, _) <- run (fresh 512 513 []) ops ;; stream_bytes (d_cfb d) e.

Example C02_case : bytes_after [ONew; ONew; OOpen 4; OOpen 5; OWrite 4 [1;2;3]] 4 = Ok [1;2;3] /\
  bytes_after [ONew; ONew; OOpen 4; OOpen 5; OWrite 4 [1;2;3]; OWrite 5 (repeat 8 700); OTrunc 5 (Some 10); ONew; ORemove 5] 4 = Ok [1;2;3].
Proof. vm_compute. split; reflexivity. Qed.

(** ** C03: where a stream lives depends on its size alone, with no sector to spare *)
Definition ceil (a b : Z) : Z := - ((- a) / b).

Lemma ceil_unique : forall n m k, 0 < m -> n <= k * m < n + m -> k = ceil n m.
Proof.
  intros n m k Hm H. unfold ceil. assert (- n / m = - k); [|lia].
  symmetry. apply Z.div_unique with (- n + k * m); lia.
Qed.

Theorem C03_threshold_class : forall d e, reachable d -> In e (d_live d) ->
  let s := d_cfb d in let size := e_size (ents s e) in let small := size <? mmax s in
  exists l, get_fat_chain (if small then minifat s else fat s) (e_sid (ents s e)) = Ok l /\ NoDup l /\
    zlen l = ceil size (if small then mss s else ss s).
Proof.
  intros d e Hr Hin s size small. destruct (reachable_R _ Hr) as [a (E & ch & hw & HI & HD & _)]. pose proof (live_nz _ _ _ HD Hin) as He.
  exists (ch e). pose proof (stream_open_ok _ _ _ _ HI He) as Ho. unfold stream_open in Ho. rewrite is_mini_kind in Ho by auto.
  split.
  - fold s in Ho. unfold kind in Ho. fold size in Ho. fold small in Ho. unfold table in Ho.
    destruct (get_fat_chain (if small then minifat s else fat s) (e_sid (ents s e))); [|discriminate]. cbn in Ho. congruence.
  - split; [eapply ch_NoDup; eauto; apply HI|]. pose proof (proj2 HI e He) as [H1 H2]. unfold cap_of in *.
    change (sec (d_cfb d) (kind (d_cfb d) e)) with (if small then mss s else ss s) in *. fold s in H1, H2. fold size in H1, H2.
    apply ceil_unique; [|lia]. pose proof (i_ss _ _ _ _ _ (proj1 (proj1 HI))). pose proof (i_mss _ _ _ _ _ (proj1 (proj1 HI))).
    fold s in H, H0. destruct small; lia.
Qed.
Print Assumptions C03_threshold_class.

Definition size_after (ops : list op) (e : Z) : result (Z * list Z * list Z) :=
  do (d, _) <- run (fresh 512 513 []) ops ;;
  Ok (e_size (ents (d_cfb d) e), mfree (d_cfb d), match get_fat_chain (if e_size (ents (d_cfb d) e) <? 4096 then minifat (d_cfb d) else fat (d_cfb d)) (e_sid (ents (d_cfb d) e)) with Ok l => l | Err _ => [] end).

(** the caller's cursor and the content survive the move; the mini sectors are given back *)
Theorem C03_crossing_keeps_content : forall a d e b d' v, R a d -> In e (d_live d) -> step d (OWrite e b) = Ok (d', v) -> v <> VIllegal ->
  forall p, a_pos a e = Some p ->
  stream_bytes (d_cfb d') e = Ok (ztake p (a_data a e) ++ b ++ zdrop (p + zlen b) (a_data a e)) /\
  exists h, d_hs d' e = Some h /\ h_pos h = p + zlen b.
Proof.
  intros a d e b d' v HR Hin Hst Hv p Hp. destruct (step_refines a d (OWrite e b) HR) as [Ho|(d1 & v1 & a1 & E1 & S1 & R1)]; [congruence|].
  rewrite Hst in E1. injection E1 as <- <-. inversion S1; subst; [congruence|]. assert (p0 = p) by congruence. subst p0.
  assert (Hin' : In e (d_live d')) by (destruct R1 as [<- _]; cbn; destruct HR as [-> _]; auto).
  split.
  - rewrite (R_bytes _ _ _ R1 Hin'). cbn. rewrite put_same. reflexivity.
  - destruct R1 as (_ & ch & hw & _ & _ & _ & Hh). specialize (Hh e). destruct (d_hs d' e) as [h|].
    + exists h. split; auto. destruct Hh as (_ & _ & _ & Hh). cbn in Hh. rewrite put_same in Hh. congruence.
    + cbn in Hh. rewrite put_same in Hh. discriminate.
Qed.
Print Assumptions C03_crossing_keeps_content.

Example C03_case : size_after [ONew; OOpen 4; OWrite 4 (repeat 5 100)] 4 = Ok (100, zseq 2 126, [0; 1]) /\
  size_after [ONew; OOpen 4; OWrite 4 (repeat 5 100); OWrite 4 (repeat 6 4000)] 4 =
  Ok (4100, 1 :: 0 :: zseq 2 126, [5; 6; 7; 8; 9; 10; 11; 12; 13]).
Proof. vm_compute. split; reflexivity. Qed.

(** ** C04 *)

(** false: growing with truncate shows bytes that were written before *)
Theorem C04_truncate_grow_zero_refuted : exists ops e a d k,
  bytes_after ops e = Ok a /\ bytes_after (ops ++ [OTrunc e (Some k)]) e = Ok d /\ zlen a < k /\
  d <> a ++ zeros (k - zlen a).
Proof.
  exists [ONew; OOpen 4; OWrite 4 [1;2;3;4]; OTrunc 4 (Some 1)], 4, [1], [1;2;3;4], 4.
  split; [vm_compute; reflexivity|]. split; [vm_compute; reflexivity|]. split; [reflexivity|]. vm_compute. discriminate.
Qed.
Print Assumptions C04_truncate_grow_zero_refuted.

(** what does hold of every truncate: the length asked for, and the old bytes that fit.
    Missing for C04: the new bytes are zero (refuted above). *)
Theorem C04_truncate_partial : forall a d e n d' v p k, R a d -> In e (d_live d) -> a_pos a e = Some p ->
  k = match n with Some x => x | None => p end -> 0 <= k ->
  step d (OTrunc e n) = Ok (d', v) ->
  exists c, stream_bytes (d_cfb d') e = Ok c /\ zlen c = k /\
    (forall i, 0 <= i < k -> i < zlen (a_data a e) -> znth c i = znth (a_data a e) i).
Proof.
  intros a d e n d' v p k HR Hin Hp Hk H0 Hst.
  destruct (step_refines a d (OTrunc e n) HR) as [Ho|(d1 & v1 & a1 & E1 & S1 & R1)]; [congruence|].
  rewrite Hst in E1. injection E1 as <- <-. inversion S1; subst.
  - exfalso. cbn in H. rewrite Hp in H. destruct n; [lia|discriminate].
  - assert (p0 = p) by congruence. subst p0.
    assert (Hin' : In e (d_live d')) by (destruct R1 as [<- _]; cbn; destruct HR as [-> _]; auto).
    exists c. split. { rewrite (R_bytes _ _ _ R1 Hin'). cbn. rewrite put_same. auto. }
    split; auto. intros i Hi Hl.
    assert (X1 : znth (ztake (zlen (a_data a e)) c) i = znth c i) by (rewrite znth_ztake; match goal with |- context [?x <? ?y] => replace (x <? y) with true by lia end; auto).
    assert (X2 : znth (ztake (zlen c) (a_data a e)) i = znth (a_data a e) i) by (rewrite znth_ztake; match goal with |- context [?x <? ?y] => replace (x <? y) with true by lia end; auto).
    rewrite H5 in X2. rewrite <- H8 in X2. congruence.
Qed.
Print Assumptions C04_truncate_partial.

Example C04_case : bytes_after [ONew; OOpen 4; OWrite 4 [1;2;3;4]; OTrunc 4 (Some 6)] 4 = Ok [1;2;3;4;0;0].
Proof. vm_compute. reflexivity. Qed.

(** ** C05: every sector number is in at most one list, and in exactly one unless reserved *)
Definition chain_in (t : list Z) (start : option Z) : list Z := match get_fat_chain t start with Ok l => l | Err _ => [] end.
Definition is_small (s : cfb) (e : Z) : bool := e_size (ents s e) <? mmax s.

(** all lists of sectors there are: the free list, directory, mini FAT, mini stream, large streams *)
Definition sector_lists (d : drv) : list (list Z) :=
  let s := d_cfb d in
  [ffree s; chain_in (fat s) (hd_error (dir_chain s)); chain_in (fat s) (if minifat_cnt s =? 0 then None else Some (minifat_start s));
   chain_in (fat s) (e_sid (ents s 0))] ++
  map (fun e => chain_in (fat s) (e_sid (ents s e))) (filter (fun e => negb (is_small s e)) (d_live d)).
(** all lists of mini sectors: the free list and the small streams *)
Definition mini_lists (d : drv) : list (list Z) :=
  let s := d_cfb d in
  mfree s :: map (fun e => chain_in (minifat s) (e_sid (ents s e))) (filter (is_small s) (d_live d)).

Lemma NoDup_concat_map : forall A B (f : A -> list B) l, NoDup l -> (forall x, In x l -> NoDup (f x)) ->
  (forall x y b, In x l -> In y l -> In b (f x) -> In b (f y) -> x = y) -> NoDup (concat (map f l)).
Proof.
  intros A B f l. induction l as [|x l IH]; intros ND H1 H2; cbn; [constructor|]. inversion ND; subst.
  apply NoDup_app_iff. split; [apply H1; left; auto|]. split.
  - apply IH; auto. + intros; apply H1; right; auto. + intros y z b Hy Hz. apply H2; right; auto.
  - intros b Hb Hc. apply in_concat in Hc. destruct Hc as (l' & Hl & Hb'). apply in_map_iff in Hl. destruct Hl as (y & <- & Hy).
    assert (x = y) by (apply (H2 x y b); auto; [left|right]; auto). subst. auto.
Qed.

Lemma reg_small : forall s e, e <> 0 -> reg s e = negb (is_small s e).
Proof. intros s e H. unfold reg, is_small. replace (e =? 0) with false by lia. auto. Qed.
Lemma mini_small : forall s e, e <> 0 -> mini s e = is_small s e.
Proof. intros s e H. unfold mini, is_small. replace (e =? 0) with false by lia. auto. Qed.

Lemma owned_chain : forall tbl own start o, TInv tbl own start -> chain_owner o -> own o = chain_in tbl (start o).
Proof. intros tbl own start o H C. pose proof (ti_link _ _ _ H o C) as L. apply linked_get in L. unfold chain_in. rewrite L. auto. Qed.

Lemma chain_value : forall tbl own start, TInv tbl own start -> forall o x, chain_owner o -> In x (own o) -> znth tbl x <> Some FREESECT.
Proof.
  intros tbl own start H o x C Hx E. pose proof (ti_link _ _ _ H o C) as L. destruct (start o) as [b|]; cbn in L; [|rewrite L in Hx; destruct Hx].
  destruct L as [_ L]. pose proof (ti_len _ _ _ H) as HL. clear H C.
  induction L as [|b b' l Hne Hn Hr IH]; [destruct Hx|]. destruct Hx as [->|Hx]; auto.
  rewrite Hn in E. inversion E; subst b'. inversion Hr; subst. apply znth_Some in H0. unfold FREESECT, MAXREGSECT in *. lia.
Qed.

Lemma live_NoDup : forall s live, DInv s live -> NoDup live.
Proof. intros s live (_ & _ & D3 & _). apply NoDup_app_iff in D3. destruct D3 as (_ & D & _). inversion D; auto. Qed.

Lemma sector_lists_map : forall a d ch hw, R a d -> Inv (d_cfb d) ch hw -> DInv (d_cfb d) (d_live d) ->
  sector_lists d = map (fowned (d_cfb d) ch []) ([OFree; ODir; OMFat; OCont] ++ map OStr (filter (fun e => negb (is_small (d_cfb d) e)) (d_live d))).
Proof.
  intros a d ch hw HR HI HD. pose proof (i_ft _ _ _ _ _ (proj1 (proj1 HI))) as T. unfold sector_lists. rewrite map_app. cbn [map app].
  pose proof (owned_chain _ _ _ ODir T) as E1. pose proof (owned_chain _ _ _ OMFat T) as E2. pose proof (owned_chain _ _ _ OCont T) as E3.
  rewrite E1, E2, E3 by (split; discriminate). cbn [fstart]. cbn [fowned]. do 4 f_equal.
  rewrite map_map. apply map_ext_in. intros e He. apply filter_In in He. destruct He as [He Hb].
  rewrite (owned_chain _ _ _ (OStr e) T) by (split; discriminate). cbn [fstart].
  rewrite reg_small, Hb by (eapply live_nz; eauto). auto.
Qed.

Lemma mini_lists_map : forall a d ch hw, R a d -> Inv (d_cfb d) ch hw -> DInv (d_cfb d) (d_live d) ->
  mini_lists d = map (mowned (d_cfb d) ch []) (OFree :: map OStr (filter (is_small (d_cfb d)) (d_live d))).
Proof.
  intros a d ch hw HR HI HD. pose proof (i_mt _ _ _ _ _ (proj1 (proj1 HI))) as T. unfold mini_lists. cbn [map]. f_equal.
  rewrite map_map. apply map_ext_in. intros e He. apply filter_In in He. destruct He as [He Hb].
  rewrite (owned_chain _ _ _ (OStr e) T) by (split; discriminate). cbn [mstart].
  rewrite mini_small, Hb by (eapply live_nz; eauto). auto.
Qed.

Lemma NoDup_OStr : forall l, NoDup l -> NoDup (map OStr l).
Proof. intros l H. apply FinFun.Injective_map_NoDup; auto. intros x y E. congruence. Qed.

(** a blank entry has no chain *)
Lemma blank_chain : forall s ch hw live e, Inv s ch hw -> DInv s live -> e <> 0 -> ~ In e live -> ch e = [].
Proof.
  intros s ch hw live e HI (_ & _ & _ & _ & D5) He Hn.
  assert (Eb : ents s e = mkent None 0) by (apply D5; intros [E|E]; [congruence|auto]).
  pose proof (proj2 HI e He) as [H1 H2]. unfold cap_of in *. rewrite Eb in *. cbn [e_size] in *.
  pose proof (sec_pos _ _ _ _ _ (kind s e) (proj1 (proj1 HI))). pose proof (zlen_nonneg _ (ch e)). apply zlen_zero_iff. nia.
Qed.

Theorem C05_sectors_owned_once : forall d, reachable d ->
  let s := d_cfb d in
  NoDup (concat (sector_lists d)) /\ NoDup (concat (mini_lists d)) /\
  (forall x, In x (ffree s) <-> znth (fat s) x = Some FREESECT) /\
  (forall x, In x (mfree s) <-> znth (minifat s) x = Some FREESECT) /\
  (forall x v, znth (fat s) x = Some v ->
     In x (concat (sector_lists d)) \/ v = FATSECT \/ v = DIFSECT \/ (v = ENDOFCHAIN /\ x = RANGELOCKSECT /\ ss s = 4096)) /\
  (forall x, 0 <= x < zlen (minifat s) <-> In x (concat (mini_lists d))).
Proof.
  intros d Hr s. destruct (reachable_R _ Hr) as [a HR]. pose proof HR as (E & ch & hw & HI & HD & _).
  rewrite (sector_lists_map _ _ _ _ HR HI HD), (mini_lists_map _ _ _ _ HR HI HD). fold s. fold s in HI, HD.
  pose proof (proj1 (proj1 HI)) as H0. pose proof (i_ft _ _ _ _ _ H0) as T. pose proof (i_mt _ _ _ _ _ H0) as M.
  assert (Hown : forall o x, In x (fowned s ch [] o) -> In x (concat (map (fowned s ch []) ([OFree; ODir; OMFat; OCont] ++ map OStr (filter (fun e => negb (is_small s e)) (d_live d)))))).
  { intros o x Hx. apply in_concat. exists (fowned s ch [] o). split; auto. apply in_map. apply in_or_app.
    destruct o; try solve [left; cbn; auto 6]; try solve [destruct Hx]. right. apply in_map. apply filter_In. cbn in Hx.
    destruct (Z.eq_dec e 0) as [->|He]; [destruct Hx|]. rewrite reg_small in Hx by auto. destruct (is_small s e) eqn:Es; [destruct Hx|].
    split; auto. destruct (in_dec Z.eq_dec e (d_live d)); auto. rewrite (blank_chain _ _ _ _ _ HI HD He n) in Hx. destruct Hx. }
  assert (Hmown : forall o x, In x (mowned s ch [] o) -> In x (concat (map (mowned s ch []) (OFree :: map OStr (filter (is_small s) (d_live d)))))).
  { intros o x Hx. apply in_concat. exists (mowned s ch [] o). split; auto. apply in_map.
    destruct o; try (left; reflexivity); try solve [destruct Hx]. right. apply in_map. apply filter_In. cbn in Hx.
    destruct (Z.eq_dec e 0) as [->|He]; [destruct Hx|]. rewrite mini_small in Hx by auto. destruct (is_small s e) eqn:Es; [|destruct Hx].
    split; auto. destruct (in_dec Z.eq_dec e (d_live d)); auto. rewrite (blank_chain _ _ _ _ _ HI HD He n) in Hx. destruct Hx. }
  split; [|split; [|split; [|split; [|split]]]].
  - apply NoDup_concat_map.
    + cbn [app].
      assert (N : forall o l, (forall e, o <> OStr e) -> ~ In o (map OStr l)).
      { intros o l Ho X. apply in_map_iff in X. destruct X as (e & X & _). apply (Ho e). auto. }
      repeat (constructor; [cbn [In]; intros X; repeat (destruct X as [X|X]; [discriminate X|]); revert X; apply N; discriminate|]).
      apply NoDup_OStr. apply NoDup_filter. eapply live_NoDup; eauto.
    + intros. apply (ti_nodup _ _ _ T).
    + intros x y b _ _. apply (ti_disj _ _ _ T).
  - apply NoDup_concat_map.
    + constructor. { rewrite in_map_iff; intros X; decompose [or ex and] X; discriminate. }
      apply NoDup_OStr. apply NoDup_filter. eapply live_NoDup; eauto.
    + intros. apply (ti_nodup _ _ _ M).
    + intros x y b _ _. apply (ti_disj _ _ _ M).
  - intros x. split.
    + intros Hx. apply (ti_free _ _ _ T OFree); auto. intros []; congruence.
    + intros Hx. destruct (i_fc _ _ _ _ _ H0 x _ Hx) as [[o Ho]|[X|[X|[X _]]]]; try discriminate.
      destruct (chain_owner_dec o) as [C|C]; [exfalso; apply (chain_value _ _ _ T o x C Ho Hx)|].
      apply not_chain_owner in C. destruct C as [->| ->]; auto. destruct Ho.
  - intros x. split.
    + intros Hx. apply (ti_free _ _ _ M OFree); auto. intros []; congruence.
    + intros Hx. destruct (i_mc _ _ _ _ _ H0 x _ Hx) as [[o Ho]|[]].
      destruct (chain_owner_dec o) as [C|C]; [exfalso; apply (chain_value _ _ _ M o x C Ho Hx)|].
      apply not_chain_owner in C. destruct C as [->| ->]; auto. destruct Ho.
  - intros x v Hx. destruct (i_fc _ _ _ _ _ H0 x _ Hx) as [[o Ho]|X]; [left; eauto|right; exact X].
  - intros x. split.
    + intros Hx. destruct (znth (minifat s) x) as [v|] eqn:Ev; [|apply znth_None in Ev; lia].
      destruct (i_mc _ _ _ _ _ H0 x _ Ev) as [[o Ho]|[]]. eauto.
    + intros Hx. apply in_concat in Hx. destruct Hx as (l & Hl & Hx). apply in_map_iff in Hl. destruct Hl as (o & <- & _).
      eapply TInv_range; eauto.
Qed.
Print Assumptions C05_sectors_owned_once.

Definition lists_after (ops : list op) : result (list (list Z) * list (list Z)) :=
  do (d, _) <- run (fresh 512 513 []) ops ;; Ok (map (ztake 12) (sector_lists d), map (ztake 4) (mini_lists d)).
Example C05_case : lists_after [ONew; ONew; OOpen 4; OOpen 5; OWrite 5 (repeat 1 100); OWrite 4 (repeat 6 4100); OTrunc 5 (Some 60)] =
  Ok ([[14; 15; 16; 17; 18; 19; 20; 21; 22; 23; 24; 25]; [0; 2]; [3]; [4]; [5; 6; 7; 8; 9; 10; 11; 12; 13]], [[1; 2; 3; 4]; [0]]).
Proof. vm_compute. reflexivity. Qed.

(** ** C06 *)

(** the sectors the DIFAT says hold the FAT *)
Definition fat_sectors (s : cfb) : list Z := filter (fun v => negb (v =? FREESECT)) (iter_difat (difat s)).
(** the sectors that hold the DIFAT itself: the first from the header, then the link that ends each table *)
Definition difat_chain (s : cfb) : list Z := firstn (length (difat s) - 1) (difat_start s :: map (fun r => last r 0) (tl (difat s))).

Lemma filter_FREE : forall fs k, (forall x, In x fs -> x <> FREESECT) -> filter (fun v => negb (v =? FREESECT)) (fs ++ repeat FREESECT k) = fs.
Proof.
  intros fs k H. rewrite filter_app. replace (filter _ (repeat FREESECT k)) with (@nil Z).
  - rewrite app_nil_r. induction fs as [|x fs IH]; cbn; auto. replace (x =? FREESECT) with false by (specialize (H x (or_introl eq_refl)); lia).
    cbn. f_equal. apply IH. intros; apply H; right; auto.
  - induction k; cbn; auto.
Qed.

(** the table, its directory and the range lock are registered once and never part of a stream *)
Theorem C06_reserved_sectors : forall d, reachable d ->
  let s := d_cfb d in
  NoDup (fat_sectors s) /\ (forall x, In x (fat_sectors s) <-> znth (fat s) x = Some FATSECT) /\
  zlen (fat_sectors s) = fat_cnt s /\ zlen (fat s) = fat_cnt s * (ss s / 4) /\
  NoDup (difat_chain s) /\ (forall x, In x (difat_chain s) <-> znth (fat s) x = Some DIFSECT) /\ zlen (difat_chain s) = difat_cnt s /\
  (forall x, In x (fat_sectors s) \/ In x (difat_chain s) -> ~ In x (concat (sector_lists d))) /\
  (ss s = 4096 -> forall l, In l (tl (sector_lists d)) -> ~ In RANGELOCKSECT l).
Proof.
  intros d Hr s. destruct (reachable_R _ Hr) as [a HR]. pose proof HR as (E & ch & hw & HI & HD & _).
  rewrite (sector_lists_map _ _ _ _ HR HI HD). fold s. fold s in HI, HD. pose proof (proj1 (proj1 HI)) as H0. pose proof (i_ft _ _ _ _ _ H0) as T.
  destruct (i_r _ _ _ _ _ H0) as (row0 & rows & fs & k & RI). destruct RI as (Hd & R0 & Rr & Rc & Hit & NDf & Hfs & Hfc & Hlen & NDd & Hds).
  assert (Efs : fat_sectors s = fs).
  { unfold fat_sectors. rewrite Hit. apply filter_FREE. intros x Hx. apply Hfs in Hx. apply znth_Some in Hx.
    pose proof (ti_len _ _ _ T). unfold FREESECT, MAXREGSECT in *. lia. }
  assert (Eds : difat_chain s = difat_sectors (difat_start s) rows).
  { unfold difat_chain, difat_sectors. rewrite Hd. cbn [tl]. replace (length (row0 :: rows) - 1)%nat with (length rows) by (cbn [length]; lia). reflexivity. }
  rewrite Efs, Eds. split; auto. split; auto. split; auto. split; [congruence|]. split; auto. split; auto. split; [|split].
  - unfold difat_sectors. unfold zlen. rewrite firstn_length. cbn [length]. rewrite map_length. rewrite <- Rc. unfold zlen. lia.
  - intros x Hx Hc. apply in_concat in Hc. destruct Hc as (l & Hl & Hx'). apply in_map_iff in Hl. destruct Hl as (o & <- & _).
    destruct (owned_nomark _ _ _ T _ _ Hx') as [N1 N2]. destruct Hx as [Hx|Hx]; [apply Hfs in Hx|apply Hds in Hx]; auto.
  - intros E4 l Hl. cbn [app map tl] in Hl. change (In l (map (fowned s ch []) ([ODir; OMFat; OCont] ++ map OStr (filter (fun e => negb (is_small s e)) (d_live d))))) in Hl.
    apply in_map_iff in Hl. destruct Hl as (o & <- & Ho).
    apply (i_rl _ _ _ _ _ H0 E4). intros ->. apply in_app_or in Ho. destruct Ho as [Ho|Ho].
    + cbn in Ho. decompose [or] Ho; try discriminate; auto.
    + apply in_map_iff in Ho. destruct Ho as (e & X & _). discriminate.
Qed.
Print Assumptions C06_reserved_sectors.

Lemma first_free_hit : forall l i, In FREESECT l -> first_free l i <> None.
Proof.
  induction l as [|x l IH]; intros i H; [destruct H|]. cbn [first_free]. destruct (x =? FREESECT) eqn:Ex; [discriminate|].
  destruct H as [H|H]; [lia|]. apply IH. auto.
Qed.
Lemma find_slot_hit : forall d, In FREESECT (iter_difat d) -> find_slot d <> None.
Proof.
  intros [|r0 rows] H; [destruct H|]. cbn [iter_difat find_slot] in *. destruct (first_free r0 0) eqn:E0; [discriminate|].
  apply in_app_or in H. destruct H as [H|H]; [exfalso; revert E0; apply first_free_hit; auto|]. clear E0.
  generalize 1. induction rows as [|r rows IH]; intros t; [destruct H|]. cbn [find_slot_from flat_map] in *.
  destruct (first_free (removelast r) 0) eqn:E1; [discriminate|]. apply in_app_or in H.
  destruct H as [H|H]; [exfalso; revert E1; apply first_free_hit; auto|]. apply IH. auto.
Qed.

Lemma grow_fat_difat_cnt : forall s s', grow_fat s = Ok s' ->
  difat_cnt s' = if existsb (Z.eqb FREESECT) (iter_difat (difat s)) then difat_cnt s else difat_cnt s + 1.
Proof.
  intros s s' H. unfold grow_fat in H. destruct (zlen (fat s) + ss s / 4 <=? MAXREGSECT); [|discriminate].
  destruct (existsb (Z.eqb FREESECT) (iter_difat (difat s))) eqn:Ex.
  - apply existsb_exists in Ex. destruct Ex as (x & Hx & Ex). apply Z.eqb_eq in Ex. subst x.
    pose proof (find_slot_hit _ Hx) as N. destruct (find_slot (difat s)) as [[t i]|]; [|congruence].
    cbn in H. injection H as <-. reflexivity.
  - rewrite find_slot_none in H.
    + destruct (difat_cnt s =? 0) eqn:Ec; cbn [bind] in H;
      match type of H with context [find_slot ?d] => destruct (find_slot d) as [[t i]|]; [|discriminate H] end;
      cbn in H; injection H as <-; cbn; lia.
    + intros x Hx ->. assert (existsb (Z.eqb FREESECT) (iter_difat (difat s)) = true); [|congruence].
      apply existsb_exists. exists FREESECT. split; auto.
Qed.

(** a full table grows by exactly one table sector, and by one sector for its directory exactly
    when that has no free slot; the new sector is outside the old table, every old entry keeps its
    value and every chain that could be followed is followed to the same sectors *)
Theorem C06_full_table_grows : forall d s' i, reachable d -> let s := d_cfb d in
  ffree s = [] -> next_free_sect s = Ok (s', i) ->
  zlen (fat s') = zlen (fat s) + ss s / 4 /\ fat_cnt s' = fat_cnt s + 1 /\
  difat_cnt s' = (if existsb (Z.eqb FREESECT) (iter_difat (difat s)) then difat_cnt s else difat_cnt s + 1) /\
  zlen (fat s) <= i < zlen (fat s') /\ znth (fat s') i = Some FREESECT /\
  (ss s = 4096 -> i <> RANGELOCKSECT) /\
  (forall x, 0 <= x < zlen (fat s) -> znth (fat s') x = znth (fat s) x) /\
  (forall b l, get_fat_chain (fat s) (Some b) = Ok l -> get_fat_chain (fat s') (Some b) = Ok l).
Proof.
  intros d s' i Hr s Hf Hn. destruct (reachable_R _ Hr) as [a HR]. pose proof HR as (E & ch & hw & HI & HD & _). fold s in HI, HD.
  pose proof (proj1 (proj1 HI)) as H0. pose proof (i_ss _ _ _ _ _ H0) as Hss. pose proof (i_ft _ _ _ _ _ H0) as T.
  unfold next_free_sect in Hn. cbn [next_free_sect_f] in Hn. rewrite Hf in Hn.
  destruct (grow_fat_spec s (i_r _ _ _ _ _ H0) Hss) as [Hcap Hg]. destruct Hcap as [Hcap|Hov]; [|rewrite Hov in Hn; discriminate Hn].
  destruct (Hg Hcap) as (dd & ds & dc & fat' & fr & s1 & E1 & E2 & RI & Hl & Hag & ND & Hne & Hfr & _).
  rewrite E1 in Hn. cbn [bind] in Hn. destruct fr as [|j fr]; [congruence|].
  assert (Ef : ffree s1 = j :: fr) by (rewrite E2; cbn; rewrite Hf; reflexivity). rewrite Ef in Hn.
  assert (Efat : fat s1 = fat') by (rewrite E2; reflexivity). destruct (Hfr j (or_introl eq_refl)) as (F1 & F2 & F3).
  rewrite Efat, F2 in Hn. cbn [bind] in Hn.
  replace ((j =? RANGELOCKSECT) && (ss s1 =? 4096)) with false in Hn.
  2: { symmetry. apply andb_false_iff. assert (ss s1 = ss s) by (rewrite E2; reflexivity). rewrite H. lia. }
  change (FREESECT =? FREESECT) with true in Hn. cbn iota in Hn. injection Hn as <- <-. cbn [fat set_ffree fat_cnt difat_cnt]. rewrite Efat.
  split; auto. split; [rewrite E2; reflexivity|]. split; [apply grow_fat_difat_cnt; auto|].
  split; [apply znth_Some in F2; lia|]. split; auto. split; auto. split; auto.
  intros b l Hb. pose proof (ti_len _ _ _ T) as HL. unfold get_fat_chain in *.
  destruct ((b =? ENDOFCHAIN) || (b =? FREESECT) || (b =? DIFSECT) || (b =? FATSECT)) eqn:Es; auto.
  apply loop_sound in Hb. destruct Hb as (l' & -> & Hb). cbn [rev app].
  assert (Hb' : chain_from fat' b l').
  { eapply chain_frame; [|exact Hb]. intros x Hx. apply Hag. clear - Hb Hx. induction Hb as [|b b' l Hne Hn Hr IH]; [destruct Hx|].
    destruct Hx as [->|Hx]; auto. apply znth_Some in Hn. auto. }
  assert (G : get_fat_chain fat' (Some b) = Ok l').
  { apply get_chain_Ok; auto. }
  unfold get_fat_chain in G. rewrite Es in G. exact G.
Qed.
Print Assumptions C06_full_table_grows.

(** 137 sectors: the second table sector is sector 128 *)
Example C06_case : (do (d, _) <- run (fresh 512 513 []) [ONew; OOpen 4; OWrite 4 (repeat 5 (Z.to_nat 70000))] ;;
    Ok (fat_sectors (d_cfb d), difat_chain (d_cfb d), zlen (fat (d_cfb d)))) = Ok ([1; 128], [], 256).
Proof. vm_compute. reflexivity. Qed.

(** growing 109 times fills the header's directory; the first sector of the directory is then
    made right after the table sector that did not fit *)
Fixpoint grow_n (n : nat) (s : cfb) : result cfb := match n with O => Ok s | S m => do s1 <- grow_fat s ;; grow_n m s1 end.
Example C06_case_difat : (do s <- grow_n 109 (d_cfb (fresh 512 513 [])) ;; Ok (zlen (fat_sectors s), last (fat_sectors s) 0, difat_chain s, difat_cnt s))
  = Ok (110, 13952, [13953], 1).
Proof. vm_compute. reflexivity. Qed.

(** ** C07 *)
Theorem C07_mini_sector_backed : forall d, reachable d -> let s := d_cfb d in
  (forall e x, In e (d_live d) -> is_small s e = true -> In x (chain_in (minifat s) (e_sid (ents s e))) ->
     (x + 1) * mss s <= zlen (chain_in (fat s) (e_sid (ents s 0))) * ss s) /\
  (forall s' i, next_free_minifat_sect s = Ok (s', i) ->
     (i + 1) * mss s' <= zlen (chain_in (fat s') (e_sid (ents s' 0))) * ss s').
Proof.
  intros d Hr s. destruct (reachable_R _ Hr) as [a HR]. pose proof HR as (E & ch & hw & HI & HD & _). fold s in HI, HD.
  pose proof (proj1 (proj1 HI)) as H0.
  assert (Hcov : forall s2 ch2 fl ml hw2 x, Inv0 s2 ch2 fl ml hw2 -> hw2 <= cover s2 -> x < hw2 ->
    (x + 1) * mss s2 <= zlen (chain_in (fat s2) (e_sid (ents s2 0))) * ss s2).
  { intros s2 ch2 fl ml hw2 x H2 Hc Hx. pose proof (owned_chain _ _ _ OCont (i_ft _ _ _ _ _ H2)) as Eo. cbn [fowned fstart] in Eo.
    rewrite <- Eo by (split; discriminate). unfold cover in Hc. pose proof (i_mss _ _ _ _ _ H2). pose proof (i_div _ _ _ _ _ H2).
    assert (ss s2 = mss s2 * (ss s2 / mss s2)) by (apply Z_div_exact_full_2; lia). remember (ss s2 / mss s2) as q.
    rewrite H3. assert (x + 1 <= zlen (mini_chain s2) * q) by lia. nia. }
  split.
  - intros e x He Hs Hx. pose proof (live_nz _ _ _ HD He) as Hne. apply (Hcov _ _ _ _ hw x H0); [apply HI|].
    destruct (i_hw _ _ _ _ _ H0) as (A & _ & _ & _ & M4). apply (M4 (OStr e)); [discriminate|].
    rewrite (owned_chain _ _ _ (OStr e) (i_mt _ _ _ _ _ H0)) by (split; discriminate). cbn [mstart].
    rewrite mini_small, Hs by auto. auto.
  - intros s' i Hn. destruct (next_free_minifat_spec _ _ _ H0 (proj2 (proj1 HI))) as [Ho|(s1 & j & hw' & E1 & H1 & Hc & _)]; [congruence|].
    rewrite Hn in E1. injection E1 as <- <-. apply (Hcov _ _ _ _ hw' i H1); auto.
    destruct (i_hw _ _ _ _ _ H1) as (A & _ & _ & _ & M4). apply (M4 OLim); [discriminate|]. left. auto.
Qed.
Print Assumptions C07_mini_sector_backed.

(** 9 mini sectors need a second container sector *)
Example C07_case : (do (d, _) <- run (fresh 512 513 []) [ONew; OOpen 4; OWrite 4 (repeat 5 520)] ;;
    Ok (chain_in (minifat (d_cfb d)) (e_sid (ents (d_cfb d) 4)), chain_in (fat (d_cfb d)) (e_sid (ents (d_cfb d) 0))))
  = Ok ([0;1;2;3;4;5;6;7;8], [4;5]).
Proof. vm_compute. reflexivity. Qed.

(** ** C13 *)

(** byte [k] of a sector as the file holds it now; past the end of the file it is zero *)
Definition file_byte (s : cfb) (sid k : Z) : Z := match znth (file s) ((sid + 1) * ss s + k) with Some b => b | None => 0 end.

(** after any calls, a read through the cache gives what the file holds, and leaves a state from
    which everything above still holds (the cache is the only thing that changed) *)
Theorem C13_cached_read_is_current : forall a d sid s' b, R a d -> 0 <= sid ->
  read_sector_data (d_cfb d) sid = (s', b) ->
  zlen b = ss (d_cfb d) /\ (forall k, 0 <= k < ss (d_cfb d) -> znth b k = Some (file_byte (d_cfb d) sid k)) /\
  file s' = file (d_cfb d) /\ R a (mkd s' (d_hs d) (d_live d)).
Proof.
  intros a d sid s' b (E & ch & hw & HI & HD & Hdata & Hh) Hs Hread. pose proof (proj1 (proj1 HI)) as H0. pose proof (i_ss _ _ _ _ _ H0) as Hss.
  destruct (read_sector_ok (d_cfb d) sid (i_cache _ _ _ _ _ H0)) as (s1 & E1 & C1 & HC); auto; [lia|].
  rewrite Hread in E1. injection E1 as <- ->. pose proof (CacheOnly_Inv0 _ _ _ _ _ _ C1 HC H0) as H1.
  split; [unfold sector_bytes; rewrite zlen_map, zlen_zseq; lia|]. split.
  - intros k Hk. unfold sector_bytes. rewrite znth_map, znth_zseq by lia. rewrite Z.add_0_l. reflexivity.
  - split; [rewrite C1; reflexivity|]. split; [exact E|]. exists ch, hw. cbn [d_cfb d_live d_hs].
    split; [|split; [|split]].
    + split; [split|].
      * exact H1.
      * rewrite C1. apply HI.
      * rewrite C1. apply HI.
    + rewrite C1. exact HD.
    + rewrite C1. exact Hdata.
    + rewrite C1. exact Hh.
Qed.
Print Assumptions C13_cached_read_is_current.

(** the same for a new file, any cache capacity, with cached reads of any sectors between the calls *)
Inductive inter : Type := IOp (o : op) | IRead (sid : Z).
Fixpoint run_inter (d : drv) (l : list inter) : result drv :=
  match l with
  | [] => Ok d
  | IOp o :: r => do (d1, _) <- step d o ;; run_inter d1 r
  | IRead sid :: r => run_inter (if sid <? 0 then d else mkd (fst (read_sector_data (d_cfb d) sid)) (d_hs d) (d_live d)) r
  end.
Theorem C13_cache_coherent : forall sector cap f l d sid, sector = 512 \/ sector = 4096 -> 0 <= sid ->
  run_inter (fresh sector cap f) l = Ok d ->
  snd (read_sector_data (d_cfb d) sid) = map (file_byte (d_cfb d) sid) (zseq 0 (ss (d_cfb d))).
Proof.
  intros sector cap f l d sid Hs Hsid Hrun.
  assert (Hex : exists a, R a d).
  { pose proof (fresh_R sector cap f Hs) as HR. revert HR Hrun. generalize blank (fresh sector cap f).
    induction l as [|[o|x] l IH]; intros a d0 HR Hrun; cbn [run_inter] in Hrun.
    - injection Hrun as <-. eauto.
    - destruct (step_refines a d0 o HR) as [Ho|(d1 & v1 & a1 & E1 & S1 & R1)]; [rewrite Ho in Hrun; discriminate|].
      rewrite E1 in Hrun. cbn [bind] in Hrun. eapply IH; eauto.
    - destruct (x <? 0) eqn:Ex; [eapply IH; eauto|]. destruct (read_sector_data (d_cfb d0) x) as [s1 b] eqn:Er.
      destruct (C13_cached_read_is_current a d0 x s1 b HR ltac:(lia) Er) as (_ & _ & _ & R1). eapply IH; eauto. }
  destruct Hex as [a HR]. destruct (read_sector_data (d_cfb d) sid) as [s1 b] eqn:Er.
  destruct (C13_cached_read_is_current a d sid s1 b HR Hsid Er) as (B1 & B2 & _). cbn [snd].
  apply znth_ext; [rewrite zlen_map, zlen_zseq; pose proof (zlen_nonneg _ b); lia|].
  intros k Hk. rewrite B2 by lia. rewrite znth_map, znth_zseq by lia. reflexivity.
Qed.
Print Assumptions C13_cache_coherent.

(** a sector read before it is overwritten through the stream, and again after *)
Example C13_case : (do d <- run_inter (fresh 512 2 []) [IOp ONew; IOp (OOpen 4); IOp (OWrite 4 [1;2]); IRead 4; IOp (OWrite 4 [3])] ;;
   Ok (ztake 4 (snd (read_sector_data (d_cfb d) 4)))) = Ok [1;2;3;0].
Proof. vm_compute. reflexivity. Qed.

(** ** C16 *)
Theorem C16_new_ids_are_fresh : forall d d' i, reachable d -> step d ONew = Ok (d', VId i) ->
  i <> 0 /\ ~ In i (d_live d) /\ NoDup (d_live d') /\ d_live d' = i :: d_live d /\
  0 <= i < zlen (chain_in (fat (d_cfb d')) (hd_error (dir_chain (d_cfb d')))) * (ss (d_cfb d') / 128).
Proof.
  intros d d' i Hr Hst. destruct (reachable_R _ Hr) as [a HR].
  destruct (step_refines a d ONew HR) as [Ho|(d1 & v1 & a1 & E1 & S1 & R1)]; [congruence|].
  rewrite Hst in E1. injection E1 as <- <-. pose proof HR as (El & _). pose proof R1 as (El1 & ch & hw & HI & HD & _).
  inversion S1; subst. cbn [a_live] in El1. rewrite El in *. symmetry in El1.
  split; [intros ->; apply H0; left; auto|]. split; [intros X; apply H0; right; auto|]. split; [eapply live_NoDup; eauto|]. split; auto.
  pose proof (owned_chain _ _ _ ODir (i_ft _ _ _ _ _ (proj1 (proj1 HI)))) as Eo. cbn [fowned fstart] in Eo. rewrite <- Eo by (split; discriminate).
  destruct HD as (_ & _ & _ & D4 & _). apply D4. apply in_or_app. right. right. rewrite El1. left. auto.
Qed.
Print Assumptions C16_new_ids_are_fresh.

(** ids are taken from the end of the directory, and freed ids come back last *)
Example C16_case : obs_of (run (fresh 512 513 []) [ONew; ONew; ONew; ORemove 5; ONew; ONew; ONew]) =
  [VId 4; VId 5; VId 6; VUnit; VId 7; VId 5; VId 8].
Proof. vm_compute. reflexivity. Qed.

(** ** C27 *)

(** two handles on one stream: shrink through the first, let another stream take the sector, and
    write through the second *)
Definition two_handles (s : cfb) (e f : Z) (d1 d2 d3 : list Z) : result (list Z * list Z) :=
  do (s, _) <- (do h <- stream_open s e ;; stream_write s h d1) ;;
  do h1 <- stream_open s e ;;
  do h2 <- stream_open s e ;;
  do (s, h1) <- stream_truncate s h1 (Some 0) ;;
  do hf <- stream_open s f ;;
  do (s, hf) <- stream_write s hf d2 ;;
  do before <- stream_bytes s f ;;
  do (s, h2) <- stream_write s h2 d3 ;;
  do after <- stream_bytes s f ;;
  Ok (before, after).

Theorem C27_two_handles_refuted : exists ops d vs e f d1 d2 d3 before after,
  run (fresh 512 513 []) ops = Ok (d, vs) /\ In e (d_live d) /\ In f (d_live d) /\ e <> f /\
  two_handles (d_cfb d) e f d1 d2 d3 = Ok (before, after) /\ before <> after.
Proof.
  destruct (run (fresh 512 513 []) [ONew; ONew]) as [[d vs]|] eqn:Er; [|vm_compute in Er; discriminate].
  exists [ONew; ONew], d, vs, 4, 5, [1;2;3], [7;8;9], [0;0], [7;8;9], [0;0;9].
  split; auto. vm_compute in Er. injection Er as <- <-. split; [cbn; auto|]. split; [cbn; auto|]. split; [discriminate|].
  split; [vm_compute; reflexivity|]. discriminate.
Qed.
Print Assumptions C27_two_handles_refuted.
