(** C10, C25 and C26: what is saved is what is read back, and closing cuts off nothing in use. *)
From Verif Require Import Base BaseFacts Codec CodecFacts DirEntryModel LRUModel CfbModel TableInv DifatInv CfbInv CfbBytes CfbStream CfbExtra StreamSpec StreamRun StreamInit
  CfbSave SaveFacts SaveInv CloseFacts Session SessionFacts SessionStep SessionInit.
From Coq Require Import ZArith List Bool Lia.
Import ListNotations.
Open Scope Z_scope.

(** The states of a writable file: a new file, then any sequence of operations on its streams and
    entries, flushes, and closes followed by reopens. *)
Definition reachable (q : sess) : Prop :=
  exists sector cap f cls root q0 ops vs, (sector = 512 \/ sector = 4096) /\ zlen cls = 16 /\ rest_ok root = true /\
    snew sector cap f cls root = Ok q0 /\ srun q0 ops = Ok (q, vs).

Lemma reachable_SR : forall q, reachable q -> exists p, SR p q.
Proof.
  intros q (sector & cap & f & cls & root & q0 & ops & vs & Hs & Hc & Hr & E0 & E1). apply rest_ok_P in Hr.
  destruct (snew_SR sector cap f cls root Hs Hc Hr) as (q0' & E0' & H0). assert (q0' = q0) by congruence. subst q0'.
  destruct (srun_refines ops _ _ H0) as [E|(q' & vs' & p & E & _ & H)]; [congruence|]. exists p. congruence.
Qed.

(** a session with some streams, small and large, one removed *)
Definition ex_root : list Z := repeat 7 116.
Definition ex_ops : list sop :=
  [SNew (repeat 1 116); SStream (OOpen 4); SStream (OWrite 4 (repeat 65 (Z.to_nat 5000)));
   SNew (repeat 2 116); SStream (OOpen 5); SStream (OWrite 5 (repeat 66 100)); SFlush;
   SNew (repeat 3 116); SStream (OOpen 6); SStream (OWrite 6 (repeat 67 70)); SStream (ORemove 6);
   SSet 5 (repeat 9 116); SReopen 3; SStream (OOpen 5); SStream (OSeek 5 98 FromStart); SStream (OWrite 5 [1; 2; 3]);
   SReopen 3; SGet 5; SStream (OOpen 5); SStream (OSeek 5 97 FromStart); SStream (ORead 5 (-1))].

Example ex_run : exists q0, snew 512 3 [] (zseq 1 16) ex_root = Ok q0 /\
  match srun q0 ex_ops with
  | Ok (q, vs) => nth 17 vs SIllegal = SRest (repeat 9 116) /\ nth 20 vs SIllegal = SV (VBytes [66; 1; 2; 3]) /\ q_live q = [5; 4] /\
      match mini_chain (c_s (q_f q)) with [] => false | _ => true end = true
  | Err _ => False
  end.
Proof. eexists. split; [vm_compute; reflexivity|]. vm_compute. auto. Qed.

Example ex_reachable : exists q, reachable q /\ q_live q = [5; 4] /\ mini_chain (c_s (q_f q)) <> [].
Proof.
  destruct ex_run as (q0 & E0 & H). destruct (srun q0 ex_ops) as [[q vs]|] eqn:E; [|contradiction]. exists q. split; [|split; [apply H|]].
  - exists 512, 3%nat, [], (zseq 1 16), ex_root, q0, ex_ops, vs. split; auto.
  - destruct H as (_ & _ & _ & H). intros Z. rewrite Z in H. discriminate.
Qed.

(** ** C10 *)

(** For every header and tables that fit together - the rows of the table of table sectors, however
    many beyond the header, the table sectors all different, each table as long as its sectors -
    writing them and reading them back gives the same rows, the same table sectors, the same
    tables, and free lists with exactly the free entries. *)
Theorem C10_tables : forall c row0 rows mch, Tables c row0 rows mch ->
  exists f t, write_tables c = Ok f /\ read_tables f = Ok t /\
    t_hdr t = header_of c /\ t_difat t = difat (c_s c) /\ fat_sectors (t_difat t) = fat_sectors (difat (c_s c)) /\
    t_fat t = fat (c_s c) /\ t_fat_cnt t = zlen (fat_sectors (difat (c_s c))) /\ t_mchain t = mch /\ t_minifat t = minifat (c_s c) /\
    (forall x, In x (t_ffree t) <-> 0 <= x /\ znth (fat (c_s c)) x = Some FREESECT) /\ NoDup (t_ffree t) /\
    (forall x, In x (t_mfree t) <-> 0 <= x /\ znth (minifat (c_s c)) x = Some FREESECT) /\ NoDup (t_mfree t).
Proof.
  intros c row0 rows mch HT. destruct (write_tables_ok _ _ _ _ HT) as (f & E & _ & ST & L & LE).
  exists f. eexists. split; [exact E|]. split; [exact (read_tables_ok _ _ _ _ _ HT ST L LE)|].
  cbn [t_hdr t_difat t_fat t_fat_cnt t_mchain t_minifat t_ffree t_mfree].
  split; auto. split; auto. split; auto. split; auto. split; auto. split; auto. split; auto.
  split; [|split; [apply NoDup_free_from|split; [|apply NoDup_free_from]]]; intros x; rewrite In_free_from, Z.sub_0_r; reflexivity.
Qed.
Print Assumptions C10_tables.

(** tables that need a row beyond the header: 111 table sectors, 14208 entries *)
Definition ex_big : cfile :=
  mkcf (mkcfb 512 64 4096 [] (repeat FATSECT 111 ++ [DIFSECT; ENDOFCHAIN; ENDOFCHAIN] ++ repeat FREESECT (Z.to_nat 14094)) []
         [zseq 0 109; [109; 110] ++ repeat FREESECT 125 ++ [ENDOFCHAIN]] 111 1 111
         (repeat FREESECT 100 ++ repeat ENDOFCHAIN 28) [] 113 1 [113] [] [112] 1 [] 0%nat [] (fun _ => mkent None 0))
       (zseq 1 16) 62 4 112 1 (fun _ => []) [].

Lemma Forall_u32 : forall l, forallb (fun v => (0 <=? v) && (v <? 4294967296)) l = true -> Forall u32 l.
Proof. intros l H. apply Forall_forall. rewrite forallb_forall in H. intros x Hx. apply H in Hx. unfold u32. lia. Qed.

Example C10_tables_ex : Tables ex_big (zseq 0 109) [[109; 110] ++ repeat FREESECT 125 ++ [ENDOFCHAIN]] [113].
Proof.
  constructor.
  - unfold hdr_ok. cbn. repeat (split; [first [reflexivity|lia|left; reflexivity|unfold u32, FREESECT; lia|auto]|]). apply Forall_u32. vm_compute. reflexivity.
  - reflexivity.
  - repeat constructor.
  - constructor; [|constructor]. apply Forall_u32. vm_compute. reflexivity.
  - reflexivity.
  - replace (table_sectors _ _ _) with (zseq 0 112 ++ [113]) by (vm_compute; reflexivity). apply NoDup_app_iff. split; [apply NoDup_zseq|].
    split; [repeat constructor; intros []|]. intros x Hx [<-|[]]. apply In_zseq in Hx. lia.
  - replace (table_sectors _ _ _) with (zseq 0 112 ++ [113]) by (vm_compute; reflexivity). intros x Hx. rewrite in_app_iff, In_zseq in Hx. unfold MAXREGSECT.
    destruct Hx as [Hx|[<-|[]]]; lia.
  - vm_compute. reflexivity.
  - apply Forall_u32. vm_compute. reflexivity.
  - vm_compute. reflexivity.
  - reflexivity.
  - apply Forall_u32. vm_compute. reflexivity.
Qed.

(** The hypothesis is what the allocator keeps: it holds in every reachable state. *)
Theorem C10_reachable : forall q, reachable q ->
  exists row0 rows, Tables (q_f q) row0 rows (minifat_chain (c_s (q_f q))).
Proof.
  intros q H. destruct (reachable_SR q H) as (p & ((_ & ch & hw & HI & _) & X & HO & _)). cbn [drv_of d_cfb] in HI.
  destruct (i_r _ _ _ _ _ (proj1 (proj1 HI))) as (row0 & rows & fs & k & HR). exists row0, rows. eapply Inv_Tables; eauto. apply HI.
Qed.
Print Assumptions C10_reachable.

(** ** C25 *)

(** The bytes that close leaves open again, and the file has the tables close wrote, the chains, and
    every entry: the start and size of each stream, and all its other fields. *)
Theorem C25_same_file : forall q cap, reachable q -> let c := q_f q in
  exists s1 f c', close_mini (c_s c) = Ok s1 /\ close c = Ok f /\ open_file f cap = Ok c' /\
    fat (c_s c') = fat s1 /\ difat (c_s c') = difat (c_s c) /\ minifat (c_s c') = minifat (c_s c) /\
    minifat_chain (c_s c') = minifat_chain (c_s c) /\ dir_chain (c_s c') = dir_chain (c_s c) /\
    ss (c_s c') = ss (c_s c) /\ mss (c_s c') = mss (c_s c) /\ mmax (c_s c') = mmax (c_s c) /\
    (forall x, In x (ffree (c_s c')) <-> 0 <= x /\ znth (fat s1) x = Some FREESECT) /\
    (forall x, In x (mfree (c_s c')) <-> 0 <= x /\ znth (minifat (c_s c)) x = Some FREESECT) /\
    (forall i, ents (c_s c') i = ents s1 i) /\ (forall i, i <> 0 -> ents (c_s c') i = ents (c_s c) i) /\
    (forall i, In i (0 :: q_live q) -> c_rest c' i = c_rest c i) /\
    (c_class c' = c_class c /\ c_minor c' = c_minor c /\ c_major c' = c_major c /\ c_dstart c' = c_dstart c /\ c_sig c' = c_sig c).
Proof.
  intros q cap H. cbv zeta. destruct (reachable_SR q H) as (p & ((_ & ch & hw & HI & HD & _) & X & HO & HJ & _)). cbn [drv_of d_cfb d_live] in HI, HD.
  destruct (close_reopen _ _ _ _ cap HI HD X HO HJ) as (f & c' & s1 & m & n & E1 & E2 & SV & _ & _ & _ & _ & _ & _ & Hr).
  exists s1, f, c'. destruct SV as [SM SC SL _ _ SH _]. destruct (u_fields _ _ _ _ SC) as (ft & fr & en & Es).
  split; auto. split; auto. split; auto.
  split; [rewrite (r_fat _ _ SL); reflexivity|].
  split; [rewrite (r_difat _ _ SL), Es; reflexivity|].
  split; [rewrite (r_minifat _ _ SL), Es; reflexivity|].
  split; [rewrite (r_mchain _ _ SL), Es; reflexivity|].
  split; [rewrite (r_dir _ _ SL), Es; reflexivity|].
  split; [rewrite (r_ss _ _ SL), Es; reflexivity|].
  split; [rewrite (r_mss _ _ SL), Es; reflexivity|].
  split; [rewrite (r_mmax _ _ SL), Es; reflexivity|].
  split; [intros x; rewrite (r_ffree _ _ SL), In_free_from, Z.sub_0_r; reflexivity|].
  split; [intros x; rewrite (r_mfree _ _ SL), In_free_from, Z.sub_0_r, Es; reflexivity|].
  split; [intros i; rewrite (r_ents _ _ SL); reflexivity|].
  split; [intros i Hi; rewrite (r_ents _ _ SL); apply (u_ents _ _ _ _ SC); auto|].
  split; auto.
Qed.
Print Assumptions C25_same_file.

(** Any number of sessions: whatever the client does, closing and reopening in between, it reads
    what a record of byte strings and fields would give it. The only other outcome is that the
    file runs out of sector numbers. *)
Theorem C25_sessions : forall sector cap f cls root ops, (sector = 512 \/ sector = 4096) -> zlen cls = 16 -> rest_ok root = true ->
  exists q0, snew sector cap f cls root = Ok q0 /\
    (srun q0 ops = Err Overflow \/ exists q vs p, srun q0 ops = Ok (q, vs) /\ psteps (pnew root) ops vs p).
Proof.
  intros sector cap f cls root ops Hs Hc Hr. apply rest_ok_P in Hr. destruct (snew_SR sector cap f cls root Hs Hc Hr) as (q0 & E0 & H0).
  exists q0. split; auto. destruct (srun_refines ops _ _ H0) as [E|(q' & vs' & p & E & P & _)]; [left; auto|right]. exists q', vs', p. auto.
Qed.
Print Assumptions C25_sessions.

(** reading a stream to its end after the reopen gives what it gave before *)
Theorem C25_content : forall q e cap, reachable q -> In e (q_live q) ->
  srun q [SStream (OOpen e); SStream (ORead e (-1)); SReopen cap; SStream (OOpen e); SStream (ORead e (-1))] <> Err Overflow ->
  exists q' b, srun q [SStream (OOpen e); SStream (ORead e (-1)); SReopen cap; SStream (OOpen e); SStream (ORead e (-1))]
    = Ok (q', [SV VUnit; SV (VBytes b); SDone; SV VUnit; SV (VBytes b)]).
Proof.
  intros q e cap H Hin Hno. destruct (reachable_SR q H) as (p & HS).
  destruct (srun_refines [SStream (OOpen e); SStream (ORead e (-1)); SReopen cap; SStream (OOpen e); SStream (ORead e (-1))] _ _ HS) as [E|(q' & vs & p' & E & P & _)]; [contradiction|].
  assert (El : In e (a_live (p_a p))) by (destruct HS as ((El & _) & _); rewrite El; exact Hin).
  exists q', (a_data (p_a p) e). rewrite E. f_equal. f_equal. clear - P El.
  assert (Q : forall a v a', astep a (OOpen e) v a' -> In e (a_live a) -> v = VUnit /\ a_live a' = a_live a /\ a_data a' e = a_data a e /\ a_pos a' e = Some 0).
  { intros a v a' S Hl. inversion S; subst; cbn; [|rewrite !put_same; auto]. exfalso. cbn in *. apply (live_b_In _ e) in Hl. cbn in *. congruence. }
  assert (Q2 : forall a v a', astep a (ORead e (-1)) v a' -> a_pos a e = Some 0 -> v = VBytes (a_data a e) /\ a_live a' = a_live a /\ a_data a' e = a_data a e).
  { intros a v a' S Hp. inversion S; subst; cbn in *.
    - rewrite Hp in *. discriminate.
    - assert (p0 = 0) by congruence. subst. rewrite zdrop_0, ?put_same by lia. auto. }
  assert (Q3 : forall p o v p', o <> ONew -> pstep p (SStream o) v p' -> exists w a', v = SV w /\ astep (p_a p) o w a' /\ p' = mksp a' (p_rest p)).
  { intros pp o v pp' Ho S. inversion S; subst; eauto. exfalso. destruct o; cbn in *; congruence. }
  inversion P as [|? ? ? ? ? ? ? S1 P1]; subst. apply Q3 in S1; [|discriminate]. destruct S1 as (w1 & a1 & -> & S1 & ->). apply Q in S1; auto. destruct S1 as (-> & L1 & D1 & Z1).
  inversion P1 as [|? ? ? ? ? ? ? S2 P2]; subst. apply Q3 in S2; [|discriminate]. destruct S2 as (w2 & a2 & -> & S2 & ->). apply Q2 in S2; auto. destruct S2 as (-> & L2 & D2). cbn [p_a] in *.
  inversion P2 as [|? ? ? ? ? ? ? S3 P3]; subst. inversion S3; subst; [discriminate|]. cbn [p_a] in *.
  inversion P3 as [|? ? ? ? ? ? ? S4 P4]; subst. apply Q3 in S4; [|discriminate]. destruct S4 as (w4 & a4 & -> & S4 & ->). apply Q in S4; [|cbn; rewrite L2, L1; auto]. destruct S4 as (-> & L4 & D4 & Z4).
  inversion P4 as [|? ? ? ? ? ? ? S5 P5]; subst. apply Q3 in S5; [|discriminate]. destruct S5 as (w5 & a5 & -> & S5 & ->). apply Q2 in S5; auto. destruct S5 as (-> & _).
  inversion P5; subst. cbn [p_a] in *. rewrite D4, D1. cbn [a_data]. rewrite D2, D1. reflexivity.
Qed.
Print Assumptions C25_content.

(** ** C26 *)

(** the count of trailing free entries stops at the last entry in use, in any table *)
Theorem C26_scan : forall tbl, tbl <> [] -> exists i, trailing_free tbl = Ok i /\
  (forall x v, znth tbl x = Some v -> v <> FREESECT -> x < zlen tbl - i) /\
  (zlen tbl - i = 1 \/ exists v, znth tbl (zlen tbl - i - 1) = Some v /\ v <> FREESECT).
Proof.
  intros tbl H. destruct (used_end_exists tbl H) as (i & n & E & U & Hn & Rn). exists i. split; auto.
  assert (Hx : forall x v, znth tbl x = Some v -> v <> FREESECT -> x < n).
  { intros x v Hz Hv. pose proof (znth_Some _ _ _ _ Hz). destruct (Z.lt_ge_cases x n); auto. rewrite (used_end_free _ _ x U) in Hz by lia. congruence. }
  split.
  - intros x v Hz Hv. specialize (Hx x v Hz Hv). lia.
  - destruct Hn as [[-> Hn]|[Hn1 Hn]]; [left; auto|]. right. rewrite Hn. apply used_end_last; auto.
Qed.
Print Assumptions C26_scan.

Example C26_scan_ex : trailing_free [ENDOFCHAIN; FREESECT; 5; FREESECT; FREESECT] = Ok 2 /\ trailing_free [FREESECT; FREESECT] = Ok 1.
Proof. vm_compute. auto. Qed.

Lemma write_slots_keep : forall ids s img s', write_slots s ids img = Ok s' -> fat s' = fat s /\ ss s' = ss s.
Proof.
  induction ids as [|i ids IH]; intros s img s' H; cbn in H; [injection H as <-; auto|].
  unfold write_slot in H. destruct (znth (dir_chain s) (i * 128 / ss s)); [|discriminate]. cbn [bind] in H. apply IH in H. cbn in H. auto.
Qed.

(** Whatever the tables hold: when close succeeds, the file ends after the last sector that the
    table does not list as free, so every such sector is in it whole. *)
Theorem C26_file_end : forall c s1 f, close_mini (c_s c) = Ok s1 -> 0 < ss s1 -> close c = Ok f ->
  exists n, 1 <= n /\ zlen f = (n + 1) * ss s1 /\
    (forall x v, znth (fat s1) x = Some v -> v <> FREESECT -> (x + 2) * ss s1 <= zlen f) /\
    (n = 1 \/ exists v, znth (fat s1) (n - 1) = Some v /\ v <> FREESECT).
Proof.
  intros c s1 f E1 Hs E. unfold close in E. rewrite E1 in E. cbn [bind] in E.
  match type of E with (do f <- write_tables ?c1 ;; _) = _ => destruct (write_tables c1) as [g|]; [|discriminate] end. cbn [bind] in E.
  unfold write_dir_entries, flush in E. cbn [c_s with_s with_mod] in E.
  destruct (write_slots _ (sort_ids (c_mod _)) _) as [s2|] eqn:W1 in E; [|discriminate]. cbn [bind c_s with_s with_mod] in E.
  destruct (write_slots s2 _ _) as [s3|] eqn:W2 in E; [|discriminate]. cbn [bind c_s with_s with_mod] in E.
  destruct (write_slots_keep _ _ _ _ W1) as [A1 A2]. destruct (write_slots_keep _ _ _ _ W2) as [B1 B2]. cbn [fat ss set_file] in A1, A2.
  rewrite B1, A1, B2, A2 in E. assert (Hne : fat s1 <> []) by (intros Z; rewrite Z in E; discriminate).
  destruct (C26_scan (fat s1) Hne) as (i & Ei & Hu & Ht). rewrite Ei in E. cbn [bind] in E. injection E as <-.
  assert (Hp : 1 <= zlen (fat s1) - i).
  { destruct Ht as [Ht|(v & Hv & _)]; [lia|]. apply znth_Some in Hv. lia. }
  exists (zlen (fat s1) - i). split; auto. rewrite zlen_ftruncate by nia. split; auto. split; auto.
  intros x v Hx Hv. specialize (Hu x v Hx Hv). nia.
Qed.
Print Assumptions C26_file_end.

(** In every reachable state closing keeps, whole, each sector of each chain: of the directory, of
    the mini-sector table, of every stream, and of the part of the mini stream that holds mini
    sectors in use. The chains of the streams are the same after the reopen. *)
Theorem C26_nothing_lost : forall q cap, reachable q -> let s := c_s (q_f q) in
  exists f c', close (q_f q) = Ok f /\ open_file f cap = Ok c' /\ let s' := c_s c' in
    (forall x, In x (dir_chain s ++ minifat_chain s ++ fat_sectors (difat s) ++ difat_sectors (difat_start s) (tl (difat s)) ++ mini_chain s') -> (x + 2) * ss s <= zlen f) /\
    (exists cut, mini_chain s = mini_chain s' ++ cut) /\
    (forall e, e <> 0 -> exists l,
       let tbl := fun t => if e_size (ents s e) <? mmax s then minifat t else fat t in
       get_fat_chain (tbl s) (e_sid (ents s e)) = Ok l /\ get_fat_chain (tbl s') (e_sid (ents s' e)) = Ok l /\
       forall x, In x l -> if e_size (ents s e) <? mmax s
         then 0 <= x /\ (x + 1) * mss s <= e_size (ents s' 0) /\ (x + 1) * mss s <= zlen (mini_chain s') * ss s
         else (x + 2) * ss s <= zlen f).
Proof.
  intros q cap H. cbv zeta. destruct (reachable_SR q H) as (p & ((_ & ch & hw & HI & HD & _) & X & HO & HJ & _)). cbn [drv_of d_cfb d_live] in HI, HD.
  destruct (close_reopen _ _ _ _ cap HI HD X HO HJ) as (f & c' & s1 & m & n & E1 & E2 & SV & HI' & _ & X' & HO' & _).
  exists f, c'. split; auto. split; auto. destruct SV as [SM SC SL _ _ SH _]. destruct (u_fields _ _ _ _ SC) as (ft & fr & en & Es).
  set (s := c_s (q_f q)) in *. set (s' := c_s c') in *.
  assert (Ess : ss s1 = ss s) by (rewrite Es; reflexivity).
  pose proof (proj1 (proj1 HI)) as I. pose proof (proj1 (proj1 HI')) as I'.
  pose proof (i_ss _ _ _ _ _ I) as Hss. pose proof (i_mss _ _ _ _ _ I) as Hmss.
  destruct (C26_file_end _ s1 f SM ltac:(lia) E1) as (nf & Hn & Lf & Hu & _). rewrite Ess in *.
  assert (Efat : fat s' = fat s1) by (apply (r_fat _ _ SL)).
  assert (Hin : forall o x, chain_owner o -> In x (fowned s' ch [] o) -> (x + 2) * ss s <= zlen f).
  { intros o x C Hx. pose proof (TInv_range _ _ _ (i_ft _ _ _ _ _ I') o x Hx) as Hr. destruct (znth_in_range _ _ _ Hr) as [v Hv].
    rewrite Efat in Hv. apply (Hu x v Hv). intros ->. rewrite <- Efat in Hv. exact (table_value_used _ _ _ o x (i_ft _ _ _ _ _ I') C Hx Hv). }
  assert (Em : minifat s' = minifat s) by (rewrite (r_minifat _ _ SL), Es; reflexivity).
  assert (Een : forall e, e <> 0 -> ents s' e = ents s e) by (intros e He; rewrite (r_ents _ _ SL); apply (u_ents _ _ _ _ SC); auto).
  assert (Emx : mmax s' = mmax s) by (rewrite (r_mmax _ _ SL), Es; reflexivity).
  assert (Ems : mss s' = mss s) by (rewrite (r_mss _ _ SL), Es; reflexivity).
  assert (Ess' : ss s' = ss s) by (rewrite (r_ss _ _ SL); exact Ess).
  split; [|split].
  - intros x Hx. rewrite !in_app_iff in Hx. destruct Hx as [Hx|[Hx|[Hx|[Hx|Hx]]]].
    + apply (Hin ODir); [split; discriminate|]. cbn. rewrite (r_dir _ _ SL), Es. exact Hx.
    + apply (Hin OMFat); [split; discriminate|]. cbn. rewrite (r_mchain _ _ SL), Es. exact Hx.
    + destruct (i_r _ _ _ _ _ I') as (row0 & rows & fs & k & HR). destruct (Inv_Tables c' ch n row0 rows fs k I' X' HO' HR) as [_ Efs]. change (c_s c') with s' in Efs.
      assert (Ed : difat s' = difat s) by (rewrite (r_difat _ _ SL), Es; reflexivity). rewrite <- Ed, Efs in Hx.
      destruct HR as (_ & _ & _ & _ & _ & _ & R7 & _). apply R7 in Hx. rewrite Efat in Hx. apply (Hu x _ Hx). discriminate.
    + destruct (i_r _ _ _ _ _ I') as (row0 & rows & fs & k & HR).
      assert (Ed : difat s' = difat s) by (rewrite (r_difat _ _ SL), Es; reflexivity). assert (Es0 : difat_start s' = difat_start s) by (rewrite (r_dstart _ _ SL), Es; reflexivity).
      destruct HR as (R1 & _ & _ & _ & _ & _ & _ & _ & _ & _ & R11). rewrite <- Ed, R1 in Hx. cbn [tl] in Hx. rewrite <- Es0 in Hx. apply R11 in Hx. rewrite Efat in Hx. apply (Hu x _ Hx). discriminate.
    + apply (Hin OCont); [split; discriminate|]. exact Hx.
  - exists (zdrop m (mini_chain s)). rewrite (r_cont _ _ SL). cbn. symmetry. apply ztake_zdrop.
  - intros e He. exists (ch e). unfold kind in *.
    assert (Q : forall t c h, Inv t c h -> get_fat_chain (if e_size (ents t e) <? mmax t then minifat t else fat t) (e_sid (ents t e)) = Ok (c e)).
    { intros t c h HT. pose proof (proj1 (proj1 HT)) as IT. fold (kind t e). destruct (kind t e) eqn:K.
      - pose proof (ti_link _ _ _ (i_mt _ _ _ _ _ IT) (OStr e) ltac:(split; discriminate)) as L. cbn in L. rewrite mini_kind, K in L by auto. apply linked_get. exact L.
      - pose proof (ti_link _ _ _ (i_ft _ _ _ _ _ IT) (OStr e) ltac:(split; discriminate)) as L. cbn in L. rewrite reg_kind, K in L by auto. apply linked_get. exact L. }
    split; [apply (Q s ch hw HI)|]. split; [rewrite <- (Een e He), <- Emx; apply (Q s' ch n HI')|].
    intros x Hx. destruct (e_size (ents s e) <? mmax s) eqn:K.
    + assert (Hx' : In x (mowned s' ch [] (OStr e))) by (cbn; rewrite mini_kind by auto; unfold kind; rewrite Een, Emx, K by auto; exact Hx).
      assert (Hx2 : In x (mowned s ch [] (OStr e))) by (cbn; rewrite mini_kind by auto; unfold kind; rewrite K by auto; exact Hx).
      pose proof (owned_below _ _ _ n (OStr e) x (i_mt _ _ _ _ _ I) (u_n _ _ _ _ SC) ltac:(split; discriminate) Hx2) as Hxn.
      assert (Esid : e_sid (ents s 0) <> None).
      { intros Zn. pose proof (ti_link _ _ _ (i_ft _ _ _ _ _ I) OCont ltac:(split; discriminate)) as L. cbn in L. rewrite Zn in L. cbn in L.
        pose proof (u_m _ _ _ _ SC) as Um. fold s in Um. rewrite L in Um. change (zlen (@nil Z)) with 0 in Um. pose proof (u_cov _ _ _ _ SC) as Hcov. assert (m = 0) by lia. subst m. lia. }
      destruct (u_size _ _ _ _ SC Esid) as [U1 _]. split; [lia|]. split.
      * rewrite (r_ents _ _ SL). change (ents (set_mini_chain s1 _) 0) with (ents s1 0). rewrite U1. nia.
      * pose proof (u_cov _ _ _ _ SC) as Hcov. rewrite (r_cont _ _ SL). cbn [mini_chain set_mini_chain]. pose proof (u_m _ _ _ _ SC). rewrite zlen_ztake by lia.
        assert (Hdiv : ss s = ss s / mss s * mss s) by (pose proof (i_div _ _ _ _ _ I); pose proof (Z.div_mod (ss s) (mss s) ltac:(lia)); lia).
        fold s in Hcov. rewrite Hdiv, Z.mul_assoc. rewrite Z.min_l by lia. apply Z.mul_le_mono_nonneg_r; lia.
    + apply (Hin (OStr e)); [split; discriminate|]. cbn. rewrite reg_kind by auto. unfold kind. rewrite Een, Emx, K by auto. exact Hx.
Qed.
Print Assumptions C26_nothing_lost.
