(** C14: updates of directory entries are never lost *)
From Verif Require Import Base BaseFacts LRUModel CfbModel CfbInv CfbBytes CfbSave SaveFacts CloseFacts SessionFacts StreamSpec DirCacheModel DirCacheFacts.
From Coq Require Import ZArith List Bool Lia.
Import ListNotations.
Open Scope Z_scope.
Notation length := List.length.

(** A file just opened: no entry has been read yet. Nothing is assumed of its directory but that the
    chain has no sector twice (as get_fat_chain guarantees) and sectors hold whole entries. *)
Definition dopen (ro : bool) (s : cfb) : dstate := mkdc s ro (fun _ => mkobj None []) 0 (fun _ => None) [] [].
Definition dir_shape (s : cfb) (live : list Z) : Prop :=
  128 <= ss s /\ ss s mod 128 = 0 /\ NoDup (dir_chain s) /\ (forall x, In x (dir_chain s) -> 0 <= x) /\ cache s = [] /\
  forall i, In i live -> 0 <= i < zlen (dir_chain s) * (ss s / 128).
(** what the file says of the entries [live] *)
Definition in_file (s : cfb) (z : dspec) : Prop :=
  forall i, In i (z_live z) -> slot_bytes (file s) (ss s) (dir_chain s) i = Some (z_data z i).

Lemma dopen_RK : forall s z, dir_shape s (z_live z) -> in_file s z -> (forall a, z_var z a = None) -> RK none (dopen false s) z.
Proof.
  intros s z (H1 & H2 & H3 & H4 & H5 & H6) Hf Hv.
  assert (E : forall i, In i (z_live z) -> slot (file s) (ss s) (dir_chain s) i = z_data z i).
  { intros i Hi. specialize (Hf i Hi). rewrite slot_bytes_in in Hf by (auto; apply H6; auto). congruence. }
  constructor; cbn; auto; try (intros; discriminate); try (intros; contradiction).
  - constructor; auto. intros k d. rewrite H5. intros [].
  - intros i Hi. rewrite <- E by auto. apply zlen_slot.
  - intros i Hi _ _. apply E. auto.
Qed.

(** Full statement (C14): every value set in an entry is seen by every later access, under any
    schedule of flushes and collections. Proved for files opened for writing; in read-only mode
    it is false, see below.

    [ops] is any sequence of accesses, sets, creations, removals, dropped variables, collections,
    flushes (forced by the number of modified entries, or asked for), growth of the directory and
    traffic on other sectors through the same sector cache. Whatever the library answers is what a
    plain map from ids to bytes answers, and no call fails. *)
Theorem C14_updates_kept_partial : forall s z ops, dir_shape s (z_live z) -> in_file s z -> (forall a, z_var z a = None) ->
  exists k1 vs z1, krun (dopen false s) (z_live z) ops = Ok (k1, z_live z1, vs) /\ zruns z ops vs z1.
Proof.
  intros s z ops H1 H2 H3. destruct (krun_refines ops (dopen false s) z (dopen_RK s z H1 H2 H3)) as (k1 & vs & z1 & E & S & _). eauto.
Qed.

(** Once flushed, the file holds those bytes for every entry in use *)
Theorem C14_flushed_partial : forall s z ops, dir_shape s (z_live z) -> in_file s z -> (forall a, z_var z a = None) ->
  exists k1 vs z1, krun (dopen false s) (z_live z) (ops ++ [DFlush]) = Ok (k1, z_live z1, vs ++ [DOk]) /\ zruns z ops vs z1 /\ in_file (k_s k1) z1.
Proof.
  intros s z ops H1 H2 H3. destruct (krun_refines ops (dopen false s) z (dopen_RK s z H1 H2 H3)) as (k1 & vs & z1 & E & S & H).
  destruct (kflush_ok k1 z1 none H) as (k2 & E2 & H4); [intros ? []|]. exists k2, vs, z1. split; [|split; auto].
  - clear - E E2. revert E. generalize (dopen false s). generalize (z_live z). revert vs. induction ops as [|o ops IH]; intros vs l k E; cbn in E.
    + injection E as <- <- <-. cbn. unfold kstep. cbn. rewrite E2. reflexivity.
    + cbn. destruct (kstep k l o) as [[[k3 l3] v]|]; cbn in *; [|discriminate].
      destruct (krun k3 l3 ops) as [[[k4 l4] vs4]|] eqn:E4; cbn in *; [|discriminate]. injection E as -> -> <-.
      rewrite (IH _ _ _ E4). reflexivity.
  - intros i Hi. pose proof (r_geo _ _ _ H4) as G. rewrite slot_bytes_in; try apply G; [|apply (r_dir _ _ _ H4); auto].
    f_equal. apply (r_slot _ _ _ H4); auto. assert (M : k_mod k2 = []).
    { unfold kflush in E2. destruct (write_mods k1 (sort_ids (akeys (k_mod k1)))); cbn in E2; [|discriminate]. injection E2 as <-. reflexivity. }
    rewrite M. intros [].
Qed.

Print Assumptions C14_updates_kept_partial.
Print Assumptions C14_flushed_partial.

(** A file with a directory of two sectors of 512 bytes, 0 and 3, with entries 0, 1 and 6 in use.
    Entry 6 is read, changed, dropped, flushed, collected and read again: the change is there. A new
    entry 7 is made and freed, and made again. *)
Definition ex_cfb : cfb :=
  mkcfb 512 64 4096 (zseq 0 3000) [] [] [] 0 0 0 [] [] 0 0 [] [] [0; 3] 2 [] 8 [] (fun _ => mkent None 0).
Definition ex_z : dspec := mkds [0; 1; 6] (fun i => match slot_bytes (file ex_cfb) 512 [0; 3] i with Some d => d | None => [] end) (fun _ => None).
Example ex_shape : dir_shape ex_cfb (z_live ex_z) /\ in_file ex_cfb ex_z.
Proof.
  split.
  - unfold dir_shape. cbn [ss ex_cfb dir_chain z_live ex_z cache]. split; [lia|]. split; [reflexivity|]. split; [repeat constructor; cbn; intuition lia|].
    split; [cbn; intuition lia|]. split; auto. intros i Hi. change (zlen [0; 3] * (512 / 128)) with 8. cbn in Hi. intuition lia.
  - intros i Hi. cbn in Hi. intuition subst; vm_compute; reflexivity.
Qed.

Definition ex_ops : list dop :=
  [DAccess 6; DSet 0 116 [9; 9; 9; 9]; DRead 3; DDrop 0; DCollect 0; DFlush; DCollect 0; DRead 5; DAccess 6; DGet 1;
   DCreate 7 [(64, [1; 2]); (66, [2])]; DFree 2; DSet 2 0 [77]; DWrite 1 0 [5; 5]; DCreate 7 [(0, [65])]; DGet 2; DGrow 5; DFlush; DAccess 7; DGet 3].
Example ex_run_dir : match krun (dopen false ex_cfb) [0; 1; 6] ex_ops with
  | Ok (_, l, vs) => Some (l, map (fun v => match v with DBytes d => DBytes (slice 112 122 d ++ slice 0 2 d) | v => v end) vs)
  | Err _ => None end =
  Some ([7; 0; 1; 6], [DAddr 0; DOk; DOk; DOk; DIllegal; DOk; DOk; DOk; DAddr 1; DBytes [2416; 2417; 2418; 2419; 9; 9; 9; 9; 2424; 2425; 2304; 2305];
    DAddr 2; DOk; DOk; DOk; DAddr 3; DBytes [0; 0; 0; 0; 255; 255; 255; 255; 0; 0; 77; 0]; DOk; DOk; DAddr 3; DBytes [0; 0; 0; 0; 255; 255; 255; 255; 0; 0; 65; 0]]).
Proof. vm_compute. reflexivity. Qed.

(** In a file opened read-only a field can be set, but the change lasts only as long as the object:
    the client sees it, and then no longer sees it. *)
Theorem C14_readonly_refuted : exists k1 l1 d1 d2,
  krun (dopen true ex_cfb) [0; 1; 6] [DAccess 6; DSet 0 116 [9; 9; 9; 9]; DGet 0; DDrop 0; DCollect 0; DAccess 6; DGet 1] =
    Ok (k1, l1, [DAddr 0; DOk; DBytes d1; DOk; DOk; DAddr 1; DBytes d2]) /\
  slice 116 120 d1 = [9; 9; 9; 9] /\ slice 116 120 d2 = [2420; 2421; 2422; 2423].
Proof. do 4 eexists. split; [vm_compute; reflexivity|]. split; vm_compute; reflexivity. Qed.
Print Assumptions C14_readonly_refuted.
