(** The state invariant of a compound file and its preservation by the allocator
    (cfb.py:1564-1680, 1787-1830). *)
From Verif Require Import Base BaseFacts LRUModel CfbModel ChainSpec ChainProofs TableInv DifatInv.
From Coq Require Import ZArith List Bool Lia.
Import ListNotations.
Open Scope Z_scope.

(** ** Bytes of the file *)
Definition fbyte (f : list Z) (i : Z) : Z := match znth f i with Some b => b | None => 0 end.
Definition sector_bytes (f : list Z) (ssz sid : Z) : list Z := map (fun k => fbyte f ((sid + 1) * ssz + k)) (zseq 0 ssz).

(** every sector kept in the cache is what the file holds *)
Definition cache_ok (s : cfb) : Prop := forall k d, In (k, d) (cache s) -> d = sector_bytes (file s) (ss s) k.

(** ** Ownership *)
Definition reg (s : cfb) (e : Z) : bool := negb (e =? 0) && negb (e_size (ents s e) <? mmax s).
Definition mini (s : cfb) (e : Z) : bool := negb (e =? 0) && (e_size (ents s e) <? mmax s).

(** [ch e] is the chain of stream [e]; [fl], [ml] are sectors taken but not yet linked *)
Definition fowned (s : cfb) (ch : Z -> list Z) (fl : list Z) (o : owner) : list Z :=
  match o with
  | OFree => ffree s | OLim => fl | ODir => dir_chain s | OMFat => minifat_chain s | OCont => mini_chain s
  | OStr e => if reg s e then ch e else []
  end.
Definition fstart (s : cfb) (o : owner) : option Z :=
  match o with
  | OFree => None | OLim => None | ODir => hd_error (dir_chain s)
  | OMFat => if minifat_cnt s =? 0 then None else Some (minifat_start s)
  | OCont => e_sid (ents s 0)
  | OStr e => if reg s e then e_sid (ents s e) else None
  end.
Definition mowned (s : cfb) (ch : Z -> list Z) (ml : list Z) (o : owner) : list Z :=
  match o with
  | OFree => mfree s | OLim => ml | ODir => [] | OMFat => [] | OCont => []
  | OStr e => if mini s e then ch e else []
  end.
Definition mstart (s : cfb) (o : owner) : option Z :=
  match o with OStr e => if mini s e then e_sid (ents s e) else None | _ => None end.

(** every table entry is owned or is one of the allowed exceptions *)
Definition Cov (tbl : list Z) (own : owner -> list Z) (exc : Z -> Z -> Prop) : Prop :=
  forall x v, znth tbl x = Some v -> (exists o, In x (own o)) \/ exc x v.
Definition fexc (s : cfb) (x v : Z) : Prop :=
  v = FATSECT \/ v = DIFSECT \/ (v = ENDOFCHAIN /\ x = RANGELOCKSECT /\ ss s = 4096).
Definition mexc (x v : Z) : Prop := False.

Definition MFree (s : cfb) (ch : Z -> list Z) (ml : list Z) (hw : Z) : Prop :=
  exists A, mfree s = A ++ zseq hw (zlen (minifat s) - hw) /\ 0 <= hw <= zlen (minifat s) /\
    (forall x, In x A -> x < hw) /\ (forall o x, o <> OFree -> In x (mowned s ch ml o) -> x < hw).

Record Inv0 (s : cfb) (ch : Z -> list Z) (fl ml : list Z) (hw : Z) : Prop := {
  i_ss : 16 <= ss s;
  i_mss : 0 < mss s;
  i_div : ss s mod mss s = 0;
  i_ft : TInv (fat s) (fowned s ch fl) (fstart s);
  i_mt : TInv (minifat s) (mowned s ch ml) (mstart s);
  i_fc : Cov (fat s) (fowned s ch fl) (fexc s);
  i_mc : Cov (minifat s) (mowned s ch ml) mexc;
  i_r : RInv s;
  i_rl : ss s = 4096 -> forall o, o <> OFree -> ~ In RANGELOCKSECT (fowned s ch fl o);
  i_hw : MFree s ch ml hw;
  i_cache : cache_ok s;
  i_dir : dir_chain s <> [];
  i_mfc : minifat_cnt s = zlen (minifat_chain s) }.

Definition cover (s : cfb) : Z := zlen (mini_chain s) * (ss s / mss s).

(** what allocation may change *)
Record Frame (s s' : cfb) : Prop := {
  f_ss : ss s' = ss s; f_mss : mss s' = mss s; f_mmax : mmax s' = mmax s;
  f_file : file s' = file s; f_ccap : ccap s' = ccap s; f_cache : cache s' = cache s;
  f_dir : dir_chain s' = dir_chain s; f_dcnt : dir_cnt s' = dir_cnt s; f_dfree : dir_free s' = dir_free s;
  f_ents : forall e, e <> 0 -> ents s' e = ents s e;
  f_root : e_size (ents s' 0) = e_size (ents s 0);
  f_cont : exists ext, mini_chain s' = mini_chain s ++ ext }.

Lemma Frame_refl : forall s, Frame s s.
Proof. intros. constructor; auto. exists []. rewrite app_nil_r. auto. Qed.

Lemma Frame_trans : forall a b c, Frame a b -> Frame b c -> Frame a c.
Proof.
  intros a b c [] []. constructor; try congruence.
  - intros. rewrite f_ents1, f_ents0; auto.
  - destruct f_cont0 as [x E0]. destruct f_cont1 as [y E]. exists (x ++ y). rewrite app_assoc, <- E0. auto.
Qed.

(** the part of the state that next_free_sect changes *)
Definition FatOnly (s s' : cfb) : Prop :=
  s' = set_ffree (set_fat (set_difat s (difat s') (difat_start s') (difat_cnt s') (fat_cnt s')) (fat s')) (ffree s').

Lemma FatOnly_Frame : forall s s', FatOnly s s' -> Frame s s'.
Proof. intros s s' E. rewrite E. constructor; auto. exists []. rewrite app_nil_r. reflexivity. Qed.

Lemma FatOnly_trans : forall a b c, FatOnly a b -> FatOnly b c -> FatOnly a c.
Proof. unfold FatOnly. intros a b c -> ->. reflexivity. Qed.

(** owned sectors carry no FAT/DIFAT mark, free ones are free *)
Lemma owned_value : forall tbl own start, TInv tbl own start -> forall o x v, In x (own o) -> znth tbl x = Some v ->
  v = FREESECT \/ v = ENDOFCHAIN \/ v < MAXREGSECT.
Proof.
  intros tbl own start H o x v Hx Hv. destruct (chain_owner_dec o) as [C|C].
  - pose proof (ti_link _ _ _ H o C) as L. destruct (start o) as [b|]; cbn in L; [|rewrite L in Hx; destruct Hx].
    destruct L as [_ L]. pose proof (ti_len _ _ _ H) as HL. right.
    clear H C. induction L as [|b b' l Hne Hn Hr IH]; [destruct Hx|].
    destruct Hx as [->|Hx]; auto.
    rewrite Hn in Hv. inversion Hv; subst v. inversion Hr; subst; auto. right. apply znth_Some in H0. lia.
  - left. apply (ti_free _ _ _ H o x C) in Hx. congruence.
Qed.

Lemma owned_nomark : forall tbl own start, TInv tbl own start -> forall o x, In x (own o) -> 
  znth tbl x <> Some FATSECT /\ znth tbl x <> Some DIFSECT.
Proof.
  intros tbl own start H o x Hx. split; intros E; destruct (owned_value _ _ _ H _ _ _ Hx E) as [E1|[E1|E1]]; 
  unfold FATSECT, DIFSECT, FREESECT, ENDOFCHAIN, MAXREGSECT in *; lia.
Qed.

(** ** next_free_sect *)
Lemma fowned_FatOnly : forall s s' ch fl o, FatOnly s s' -> o <> OFree -> fowned s' ch fl o = fowned s ch fl o.
Proof. intros s s' ch fl o E H. rewrite E. destruct o; try reflexivity. congruence. Qed.

Lemma fstart_FatOnly : forall s s' o, FatOnly s s' -> fstart s' o = fstart s o.
Proof. intros s s' o E. rewrite E. destruct o; reflexivity. Qed.

Lemma mowned_FatOnly : forall s s' ch ml o, FatOnly s s' -> mowned s' ch ml o = mowned s ch ml o.
Proof. intros s s' ch ml o E. rewrite E. destruct o; reflexivity. Qed.

Lemma mstart_FatOnly : forall s s' o, FatOnly s s' -> mstart s' o = mstart s o.
Proof. intros s s' o E. rewrite E. destruct o; reflexivity. Qed.

(** rebuild the invariant after a change of the FAT side only *)
Lemma Inv0_FatOnly : forall s s' ch fl fl' ml hw, Inv0 s ch fl ml hw -> FatOnly s s' ->
  TInv (fat s') (fowned s' ch fl') (fstart s') -> Cov (fat s') (fowned s' ch fl') (fexc s') -> RInv s' ->
  (ss s = 4096 -> ~ In RANGELOCKSECT fl') ->
  Inv0 s' ch fl' ml hw.
Proof.
  intros s s' ch fl fl' ml hw [] F HT HC HR HL.
  assert (Ess : ss s' = ss s) by (rewrite F; reflexivity).
  constructor; auto; try (rewrite F; assumption).
  - intros E o Ho. destruct (owner_eq_dec o OLim) as [->|N]; cbn; [rewrite Ess in E; auto|].
    intro Hx. rewrite Ess in E. apply (i_rl0 E o Ho). 
    assert (fowned s' ch fl' o = fowned s ch fl o) as <-; auto.
    rewrite (fowned_FatOnly s s' ch fl' o F Ho). destruct o; auto; congruence.
Qed.

Lemma T_empty_lim : forall tbl own start, TInv tbl own start -> forall i rest, own OFree = i :: rest -> own OLim = [] ->
  TInv tbl (oupd (oupd own OFree rest) OLim [i]) start.
Proof. intros. pose proof (T_pop _ _ _ H i rest H0) as HT. rewrite H1 in HT. auto. Qed.

(** taking the head of the free list when it is not the range lock *)
Lemma nfs_pop : forall s ch ml hw i rest, Inv0 s ch [] ml hw -> ffree s = i :: rest ->
  (ss s = 4096 -> i <> RANGELOCKSECT) -> Inv0 (set_ffree s rest) ch [i] ml hw.
Proof.
  intros s ch ml hw i rest H E Hi.
  assert (F : FatOnly s (set_ffree s rest)) by (destruct s; reflexivity).
  assert (Eo : forall o, fowned (set_ffree s rest) ch [i] o = oupd (oupd (fowned s ch []) OFree rest) OLim [i] o).
  { intros o. unfold oupd. destruct (owner_eq_dec o OLim) as [->|N1]; [reflexivity|].
    destruct (owner_eq_dec o OFree) as [->|N2]; [reflexivity|]. destruct o; try reflexivity; congruence. }
  eapply Inv0_FatOnly; eauto.
  - apply TInv_ext with (own := oupd (oupd (fowned s ch []) OFree rest) OLim [i]) (start := fstart s); auto.
    + apply T_empty_lim; auto. apply (i_ft _ _ _ _ _ H).
  - intros x v Hv. destruct (i_fc _ _ _ _ _ H x v Hv) as [[o Ho]|He]; auto.
    left. destruct (owner_eq_dec o OFree) as [->|N].
    + cbn in Ho. rewrite E in Ho. destruct Ho as [->|Ho]; [exists OLim; left; auto|exists OFree; auto].
    + exists o. rewrite Eo. rewrite !oupd_other; auto. intros ->. destruct Ho.
  - destruct H; auto.
  - intros Ess [Hx|[]]. apply (Hi Ess). auto.
Qed.

(** marking the range lock *)
Lemma nfs_drop : forall s ch ml hw rest, Inv0 s ch [] ml hw -> ffree s = RANGELOCKSECT :: rest -> ss s = 4096 ->
  Inv0 (set_fat (set_ffree s rest) (zupd (fat s) RANGELOCKSECT ENDOFCHAIN)) ch [] ml hw.
Proof.
  intros s ch ml hw rest H E Ess. set (s' := set_fat _ _).
  assert (F : FatOnly s s') by (destruct s; reflexivity).
  assert (Eo : forall o, fowned s' ch [] o = oupd (fowned s ch []) OFree rest o).
  { intros o. unfold oupd. destruct (owner_eq_dec o OFree) as [->|N2]; [reflexivity|]. destruct o; try reflexivity; congruence. }
  pose proof (i_ft _ _ _ _ _ H) as HT.
  assert (Hin : In RANGELOCKSECT (fowned s ch [] OFree)) by (cbn; rewrite E; left; auto).
  eapply Inv0_FatOnly; eauto.
  - apply TInv_ext with (own := oupd (fowned s ch []) OFree rest) (start := fstart s); auto.
    apply T_drop; auto.
  - intros x v Hv. cbn [fat s' set_fat] in Hv. rewrite znth_zupd in Hv.
    destruct ((RANGELOCKSECT =? x) && (0 <=? RANGELOCKSECT) && (RANGELOCKSECT <? zlen (fat s))) eqn:Ex.
    + right. right. right. inversion Hv. split; [auto|]. split; [lia|auto].
    + destruct (i_fc _ _ _ _ _ H x v Hv) as [[o Ho]|He]; auto. left.
      destruct (owner_eq_dec o OFree) as [->|N].
      * cbn in Ho. rewrite E in Ho. destruct Ho as [<-|Ho]; [|exists OFree; auto].
        exfalso. pose proof (TInv_range _ _ _ HT OFree _ Hin). lia.
      * exists o. rewrite Eo, oupd_other; auto.
  - destruct (owned_nomark _ _ _ HT _ _ Hin) as [N1 N2]. pose proof (TInv_range _ _ _ HT _ _ Hin) as Hr.
    apply (RInv_marks s); auto; try (apply (i_r _ _ _ _ _ H)).
    + cbn. apply zlen_zupd.
    + intros x. cbn [fat s' set_fat]. rewrite znth_zupd. destruct (Z.eq_dec RANGELOCKSECT x) as [<-|N].
      * rewrite Z.eqb_refl. replace (true && (0 <=? RANGELOCKSECT) && (RANGELOCKSECT <? zlen (fat s))) with true by lia.
        split; [discriminate|tauto].
      * replace (RANGELOCKSECT =? x) with false by lia. reflexivity.
    + intros x. cbn [fat s' set_fat]. rewrite znth_zupd. destruct (Z.eq_dec RANGELOCKSECT x) as [<-|N].
      * rewrite Z.eqb_refl. replace (true && (0 <=? RANGELOCKSECT) && (RANGELOCKSECT <? zlen (fat s))) with true by lia.
        split; [discriminate|tauto].
      * replace (RANGELOCKSECT =? x) with false by lia. reflexivity.
Qed.

(** growing *)
Lemma nfs_grow : forall s ch ml hw, Inv0 s ch [] ml hw ->
  grow_fat s = Err Overflow \/
  exists s' fr, grow_fat s = Ok s' /\ FatOnly s s' /\ Inv0 s' ch [] ml hw /\ ffree s' = ffree s ++ fr /\ fr <> [] /\
    NoDup (ffree s') /\ (ss s = 4096 -> forall x, In x fr -> x <> RANGELOCKSECT).
Proof.
  intros s ch ml hw H. destruct (grow_fat_spec s (i_r _ _ _ _ _ H) (i_ss _ _ _ _ _ H)) as [[Hcap|Hov] Hg]; auto.
  right. destruct (Hg Hcap) as (d & ds & dc & fat' & fr & s' & E1 & E2 & HR & Hl & Hag & ND & Hne & Hfr & Hcov).
  assert (F : FatOnly s s') by (rewrite E2; reflexivity).
  assert (Efat : fat s' = fat') by (rewrite E2; reflexivity).
  assert (Effree : ffree s' = ffree s ++ fr) by (rewrite E2; reflexivity).
  assert (Ess : ss s' = ss s) by (rewrite E2; reflexivity).
  assert (Hss4 : 4 <= ss s / 4) by (pose proof (i_ss _ _ _ _ _ H); lia).
  assert (Eo : forall o, fowned s' ch [] o = oupd (fowned s ch []) OFree (fowned s ch [] OFree ++ fr) o).
  { intros o. unfold oupd. destruct (owner_eq_dec o OFree) as [->|N2]; [rewrite E2; reflexivity|]. apply fowned_FatOnly; auto. }
  assert (HI : Inv0 s' ch [] ml hw).
  { eapply Inv0_FatOnly; eauto.
    - rewrite Efat. apply TInv_ext with (own := oupd (fowned s ch []) OFree (fowned s ch [] OFree ++ fr)) (start := fstart s); auto.
      + intros; apply fstart_FatOnly; auto.
      + apply T_extend with (tbl := fat s); auto.
        * apply (i_ft _ _ _ _ _ H).
        * lia.
        * intros x Hx. destruct (Hfr x Hx) as [A [B _]]. auto.
    - rewrite Efat. intros x v Hv. pose proof (znth_Some _ _ _ _ Hv) as Hx.
      destruct (Z.lt_ge_cases x (zlen (fat s))).
      + rewrite Hag in Hv by lia. destruct (i_fc _ _ _ _ _ H x v Hv) as [[o Ho]|He].
        * left. exists o. rewrite Eo. unfold oupd. destruct (owner_eq_dec o OFree); auto. subst. apply in_or_app. auto.
        * right. unfold fexc in *. rewrite Ess. auto.
      + destruct (Hcov x ltac:(lia)) as [Hx2|[Hx2|[Hx2|[Hx2 Hx3]]]].
        * left. exists OFree. rewrite Eo, oupd_same. apply in_or_app. auto.
        * right. left. congruence.
        * right. right. left. congruence.
        * right. right. right. rewrite Ess. split; [congruence|auto]. }
  exists s', fr. repeat (split; [assumption|]). split.
  - apply (ti_nodup _ _ _ (i_ft _ _ _ _ _ HI) OFree).
  - intros E4 x Hx. destruct (Hfr x Hx) as [_ [_ A]]. auto.
Qed.

Lemma next_free_sect_spec : forall s ch ml hw, Inv0 s ch [] ml hw ->
  next_free_sect s = Err Overflow \/
  exists s' i, next_free_sect s = Ok (s', i) /\ FatOnly s s' /\ Inv0 s' ch [i] ml hw.
Proof.
  intros s ch ml hw H. unfold next_free_sect.
  (* the last pop: a free list whose head is not the range lock *)
  assert (Hpop : forall n s1 i rest, Inv0 s1 ch [] ml hw -> ffree s1 = i :: rest -> (ss s1 = 4096 -> i <> RANGELOCKSECT) ->
    FatOnly s s1 -> exists s' i', next_free_sect_f (S n) s1 = Ok (s', i') /\ FatOnly s s' /\ Inv0 s' ch [i'] ml hw).
  { intros n s1 i rest H1 E Hi F. exists (set_ffree s1 rest), i.
    pose proof (ti_free _ _ _ (i_ft _ _ _ _ _ H1) OFree i) as Hfree.
    cbn [fowned] in Hfree. rewrite E in Hfree. cbn [next_free_sect_f]. rewrite E, Hfree; [|intros []; congruence|left; auto].
    rewrite Z.eqb_refl. cbn [bind].
    replace ((i =? RANGELOCKSECT) && (ss s1 =? 4096)) with false.
    2:{ symmetry. destruct (ss s1 =? 4096) eqn:E4; [|apply andb_false_r]. rewrite andb_true_r. apply Z.eqb_neq. apply Hi. lia. }
    split; [reflexivity|]. split; [|apply nfs_pop; auto].
    eapply FatOnly_trans; [exact F|]. destruct s1; reflexivity. }
  (* a growth followed by a pop *)
  assert (Hgrow : forall n s1, Inv0 s1 ch [] ml hw -> ffree s1 = [] -> FatOnly s s1 ->
    next_free_sect_f (S (S n)) s1 = Err Overflow \/
    exists s' i', next_free_sect_f (S (S n)) s1 = Ok (s', i') /\ FatOnly s s' /\ Inv0 s' ch [i'] ml hw).
  { intros n s1 H1 E F. destruct (nfs_grow s1 ch ml hw H1) as [Hov|(s2 & fr & Eg & F2 & H2 & Efr & Hne & ND & Hrl)].
    - left. cbn [next_free_sect_f]. rewrite E, Hov. reflexivity.
    - right. rewrite E in Efr. cbn in Efr. destruct fr as [|i rest]; [congruence|].
      assert (Es : ss s2 = ss s1) by (rewrite F2; reflexivity).
      destruct (Hpop n s2 i rest H2 Efr) as (s' & i' & E3 & F3 & H3).
      + intros E4. apply Hrl; [congruence|left; auto].
      + eapply FatOnly_trans; eauto.
      + exists s', i'. split; [|auto]. 
        change (next_free_sect_f (S (S n)) s1) with
          (match ffree s1 with
           | i :: rest => match znth (fat s1) i with
              | None => Err IndexError
              | Some v => guard (v =? FREESECT) else AssertionError ;;
                 let s1' := set_ffree s1 rest in
                 if (i =? RANGELOCKSECT) && (ss s1 =? 4096) then next_free_sect_f (S n) (set_fat s1' (zupd (fat s1') i ENDOFCHAIN)) else Ok (s1', i)
              end
           | [] => do s1' <- grow_fat s1 ;; next_free_sect_f (S n) s1' end).
        rewrite E, Eg. exact E3. }
  assert (F0 : FatOnly s s) by (destruct s; reflexivity).
  destruct (ffree s) as [|i rest] eqn:E.
  - apply (Hgrow 2%nat); auto.
  - destruct ((i =? RANGELOCKSECT) && (ss s =? 4096)) eqn:Erl.
    + assert (i = RANGELOCKSECT) by lia. assert (E4 : ss s = 4096) by lia. subst i.
      pose proof (nfs_drop s ch ml hw rest H E E4) as H1. set (s1 := set_fat (set_ffree s rest) (zupd (fat s) RANGELOCKSECT ENDOFCHAIN)) in *.
      assert (F1 : FatOnly s s1) by (destruct s; reflexivity).
      assert (Ef : next_free_sect_f 4 s = next_free_sect_f 3 s1).
      { cbn [next_free_sect_f]. rewrite E.
        pose proof (ti_free _ _ _ (i_ft _ _ _ _ _ H) OFree RANGELOCKSECT) as Hfree.
        cbn [fowned] in Hfree. rewrite E in Hfree. rewrite Hfree; [|intros []; congruence|left; auto].
        rewrite Z.eqb_refl. cbn [bind]. rewrite E4. rewrite Z.eqb_refl. cbn [andb Z.eqb]. reflexivity. }
      rewrite Ef. destruct rest as [|j rest'].
      * apply (Hgrow 1%nat); auto.
      * right. apply (Hpop 2%nat s1 j rest'); auto.
        intros _ ->. pose proof (ti_nodup _ _ _ (i_ft _ _ _ _ _ H) OFree) as ND. cbn in ND. rewrite E in ND.
        inversion ND; subst. apply H3. left; auto.
    + right. apply (Hpop 3%nat s i rest); auto. intros E4 ->. rewrite E4 in Erl. cbn in Erl. discriminate.
Qed.

(** ** Rebuilding the invariant after linking or freeing *)
Lemma Cov_move : forall tbl tbl' own own' (exc : Z -> Z -> Prop), Cov tbl own exc ->
  (forall x o, In x (own o) -> exists o', In x (own' o')) ->
  (forall x v, znth tbl' x = Some v -> (exists o, In x (own o)) \/ znth tbl x = Some v) ->
  Cov tbl' own' exc.
Proof.
  intros tbl tbl' own own' exc H H1 H2 x v Hv. destruct (H2 x v Hv) as [[o Ho]|Hv2].
  - left. eauto.
  - destruct (H x v Hv2) as [[o Ho]|He]; auto. left. eauto.
Qed.

Lemma mark_upd : forall (t : list Z) x v w M, znth t x = Some w -> w <> M -> v <> M ->
  forall y, znth (zupd t x v) y = Some M <-> znth t y = Some M.
Proof.
  intros t x v w M H H1 H2 y. rewrite znth_zupd. destruct ((x =? y) && (0 <=? x) && (x <? zlen t)) eqn:E.
  - assert (x = y) by lia. subst. rewrite H. split; congruence.
  - tauto.
Qed.

Lemma mark_free_all : forall l (t : list Z) M, M <> FREESECT -> (forall x, In x l -> znth t x <> Some M) ->
  forall y, znth (free_all t l) y = Some M <-> znth t y = Some M.
Proof.
  intros l t M HM H y. destruct (in_dec Z.eq_dec y l) as [Hin|Hin].
  - destruct (znth t y) eqn:E.
    + rewrite znth_free_all_in; auto; [|apply znth_Some in E; auto]. pose proof (H y Hin). split; congruence.
    + assert (znth (free_all t l) y = None) as ->.
      { destruct (znth (free_all t l) y) eqn:E2; auto. apply znth_Some in E2. rewrite zlen_free_all in E2.
        destruct (znth_in_range _ t y E2) as [zz Hz]. congruence. }
      tauto.
  - rewrite znth_free_all_notin by auto. tauto.
Qed.

Definition SameCore (s s' : cfb) : Prop :=
  ss s' = ss s /\ mss s' = mss s /\ file s' = file s /\ (forall k d, In (k, d) (cache s') -> In (k, d) (cache s)).
Definition SameDifat (s s' : cfb) : Prop :=
  difat s' = difat s /\ difat_start s' = difat_start s /\ difat_cnt s' = difat_cnt s /\ fat_cnt s' = fat_cnt s.
Definition MiniSame (s s' : cfb) (ch ch' : Z -> list Z) (ml : list Z) : Prop :=
  minifat s' = minifat s /\ (forall o, mowned s' ch' ml o = mowned s ch ml o) /\
  (forall o, chain_owner o -> mstart s' o = mstart s o).
Definition FatSame (s s' : cfb) (ch ch' : Z -> list Z) (fl : list Z) : Prop :=
  fat s' = fat s /\ (forall o, fowned s' ch' fl o = fowned s ch fl o) /\
  (forall o, chain_owner o -> fstart s' o = fstart s o).

Lemma cache_same : forall s s', SameCore s s' -> cache_ok s -> cache_ok s'.
Proof. intros s s' (E1 & E2 & E3 & E4) H k d Hd. rewrite E1, E3. auto. Qed.

Lemma mini_same_mt : forall s s' ch ch' ml, MiniSame s s' ch ch' ml ->
  TInv (minifat s) (mowned s ch ml) (mstart s) -> TInv (minifat s') (mowned s' ch' ml) (mstart s').
Proof. intros s s' ch ch' ml (E1 & E2 & E3) H. rewrite E1. apply TInv_ext with (own := mowned s ch ml) (start := mstart s); auto. Qed.

Lemma mini_same_mc : forall s s' ch ch' ml, MiniSame s s' ch ch' ml ->
  Cov (minifat s) (mowned s ch ml) mexc -> Cov (minifat s') (mowned s' ch' ml) mexc.
Proof.
  intros s s' ch ch' ml (E1 & E2 & E3) H. rewrite E1. eapply Cov_move; eauto.
  intros x o Ho. exists o. rewrite E2. auto.
Qed.

Lemma mini_same_hw : forall s s' ch ch' ml hw, MiniSame s s' ch ch' ml -> MFree s ch ml hw -> MFree s' ch' ml hw.
Proof.
  intros s s' ch ch' ml hw (E1 & E2 & E3) (A & H1 & H2 & H3 & H4). exists A. rewrite E1.
  split; [rewrite <- H1; apply (E2 OFree)|]. split; auto. split; auto. intros o x Ho Hx. rewrite E2 in Hx. eauto.
Qed.

(** the transit sector [i] is linked to the chain of owner [o] *)
Lemma Inv0_link : forall s s' ch ch' ml hw i o, Inv0 s ch [i] ml hw -> chain_owner o ->
  SameCore s s' -> SameDifat s s' -> MiniSame s s' ch ch' ml ->
  (forall o', fowned s' ch' [] o' = oupd (oupd (fowned s ch [i]) OLim []) o (fowned s ch [i] o ++ [i]) o') ->
  (fowned s ch [i] o = [] -> fat s' = zupd (fat s) i ENDOFCHAIN /\
     (forall o', chain_owner o' -> fstart s' o' = oupd (fstart s) o (Some i) o')) ->
  (fowned s ch [i] o <> [] -> fat s' = zupd (zupd (fat s) (last (fowned s ch [i] o) 0) i) i ENDOFCHAIN /\
     (forall o', chain_owner o' -> fstart s' o' = fstart s o')) ->
  dir_chain s' <> [] -> minifat_cnt s' = zlen (minifat_chain s') ->
  Inv0 s' ch' [] ml hw.
Proof.
  intros s s' ch ch' ml hw i o H Ho SC SD MS Eo Hnew Happ Hdir Hmfc. pose proof SC as (C1 & C2 & C3 & C4). destruct H as [A1 A2 A3 HT A5 HC A7 HR A9 A10 A11 A12 A13].
  assert (Hi : In i (fowned s ch [i] OLim)) by (left; auto).
  assert (Hir := TInv_range _ _ _ HT _ _ Hi). pose proof (ti_len _ _ _ HT) as HL.
  destruct (owned_nomark _ _ _ HT _ _ Hi) as [Mi1 Mi2].
  destruct (znth_in_range _ (fat s) i Hir) as [vi Evi].
  assert (Hsmall : i <> FATSECT /\ i <> DIFSECT) by (unfold MAXREGSECT, FATSECT, DIFSECT in *; lia).
  assert (HTC : TInv (fat s') (fowned s' ch' []) (fstart s') /\ RInv s' /\
     (forall x v, znth (fat s') x = Some v -> (exists o, In x (fowned s ch [i] o)) \/ znth (fat s) x = Some v)).
  { destruct (list_eq_dec Z.eq_dec (fowned s ch [i] o) []) as [En|Nn].
    - destruct (Hnew En) as [Ef Es]. split; [|split].
      + rewrite Ef. eapply TInv_ext; [| |apply (T_link_new _ _ _ HT i o); auto].
        * intros o'. rewrite Eo, En. reflexivity.
        * auto.
      + destruct SD as (D1 & D2 & D3 & D4). apply (RInv_marks s); auto.
        * rewrite Ef. apply zlen_zupd.
        * rewrite Ef. apply mark_upd with vi; congruence || discriminate.
        * rewrite Ef. apply mark_upd with vi; congruence || discriminate.
      + intros x v. rewrite Ef, znth_zupd. destruct ((i =? x) && (0 <=? i) && (i <? zlen (fat s))) eqn:E; auto.
        intros _. left. exists OLim. assert (i = x) by lia. subst. auto.
    - destruct (Happ Nn) as [Ef Es].
      set (l := last (fowned s ch [i] o) 0) in *.
      assert (Hlin : In l (fowned s ch [i] o)) by (apply last_In; auto).
      assert (Hli : l <> i).
      { intros E. rewrite E in Hlin. pose proof (ti_disj _ _ _ HT _ _ _ Hlin Hi). destruct Ho. congruence. }
      destruct (owned_nomark _ _ _ HT _ _ Hlin) as [Ml1 Ml2].
      assert (Hlr := TInv_range _ _ _ HT _ _ Hlin). destruct (znth_in_range _ (fat s) l Hlr) as [vl Evl].
      split; [|split].
      + rewrite Ef. eapply TInv_ext; [| |apply (T_link_app _ _ _ HT i o); auto]; auto.
      + destruct SD as (D1 & D2 & D3 & D4). apply (RInv_marks s); auto.
        * rewrite Ef. rewrite !zlen_zupd. auto.
        * intros y. rewrite Ef, (mark_upd _ _ _ vi); [|rewrite znth_zupd_other; auto|congruence|discriminate].
          apply mark_upd with vl; congruence || tauto.
        * intros y. rewrite Ef, (mark_upd _ _ _ vi); [|rewrite znth_zupd_other; auto|congruence|discriminate].
          apply mark_upd with vl; congruence || tauto.
      + intros x v. rewrite Ef, !znth_zupd, !zlen_zupd.
        destruct ((i =? x) && (0 <=? i) && (i <? zlen (fat s))) eqn:E.
        { intros _. left. exists OLim. assert (i = x) by lia. subst. auto. }
        destruct ((l =? x) && (0 <=? l) && (l <? zlen (fat s))) eqn:E2; auto.
        intros _. left. exists o. assert (l = x) by lia. subst x. auto. }
  destruct HTC as [HT' [HR' Hv]].
  constructor; auto; try (rewrite ?C1, ?C2; assumption).
  - eapply mini_same_mt; eauto.
  - eapply Cov_move; [| |exact Hv].
    + intros x v Hx. destruct (HC x v Hx) as [|He]; auto. right. unfold fexc in *. rewrite C1. auto.
    + intros x o' Hx. destruct (owner_eq_dec o' OLim) as [->|N1].
      * cbn in Hx. destruct Hx as [<-|[]]. exists o. rewrite Eo, oupd_same. apply in_or_app. right. left. auto.
      * exists o'. rewrite Eo. unfold oupd. destruct (owner_eq_dec o' o) as [->|N2]; [apply in_or_app; auto|].
        destruct (owner_eq_dec o' OLim); [congruence|auto].
  - eapply mini_same_mc; eauto.
  - intros E o' Ho' Hx. rewrite C1 in E. rewrite Eo in Hx. unfold oupd in Hx. destruct (owner_eq_dec o' o) as [->|N2].
    + apply in_app_or in Hx. destruct Hx as [Hx|[Hx|[]]]; [eapply A9; eauto|].
      apply (A9 E OLim); [discriminate|]. left. auto.
    + destruct (owner_eq_dec o' OLim); [destruct Hx|]. eapply A9; eauto.
  - eapply mini_same_hw; eauto.
  - eapply cache_same; eauto.
Qed.

(** ** mini_stream_grow *)
Lemma root_reg : forall s, reg s 0 = false. Proof. reflexivity. Qed.
Lemma root_mini : forall s, mini s 0 = false. Proof. reflexivity. Qed.

Lemma SameCore_refl : forall s, SameCore s s.
Proof. intros. repeat split; auto. Qed.

Lemma FatOnly_fields : forall s s', FatOnly s s' -> SameCore s s' /\ mmax s' = mmax s /\ minifat s' = minifat s /\ mfree s' = mfree s /\
  minifat_start s' = minifat_start s /\ minifat_cnt s' = minifat_cnt s /\ minifat_chain s' = minifat_chain s /\
  mini_chain s' = mini_chain s /\ dir_chain s' = dir_chain s /\ dir_cnt s' = dir_cnt s /\ dir_free s' = dir_free s /\
  ents s' = ents s /\ cache s' = cache s.
Proof. intros s s' E. rewrite E. repeat split; auto. Qed.

Lemma mini_stream_grow_spec : forall s ch ml hw, Inv0 s ch [] ml hw ->
  mini_stream_grow s = Err Overflow \/
  exists s', mini_stream_grow s = Ok s' /\ Inv0 s' ch [] ml hw /\ Frame s s' /\
    (exists i, mini_chain s' = mini_chain s ++ [i]) /\ mfree s' = mfree s /\ minifat s' = minifat s.
Proof.
  intros s ch ml hw H. unfold mini_stream_grow.
  destruct (next_free_sect_spec s ch ml hw H) as [->|(s1 & i & -> & F & H1)]; [left; reflexivity|right].
  cbn [bind]. pose proof (FatOnly_fields _ _ F) as (_ & _ & E1 & E2 & _ & _ & _ & E3 & E4 & _ & _ & E5 & _).
  destruct (mini_chain s1) as [|c cs] eqn:Ec.
  - eexists. split; [reflexivity|]. split; [|split; [|split; [|split]]].
    + apply Inv0_link with (s := s1) (ch := ch) (i := i) (o := OCont); auto; try (repeat split; auto; fail).
      * split; discriminate.
      * repeat split; auto.
        -- intros []; try reflexivity. cbn. unfold mini. cbn. destruct (e =? 0) eqn:E0; auto.
        -- intros []; try reflexivity. cbn. unfold mini. cbn. destruct (e =? 0) eqn:E0; auto.
      * intros o'. unfold oupd. destruct (owner_eq_dec o' OCont) as [->|N]; [cbn; rewrite Ec; reflexivity|].
        destruct (owner_eq_dec o' OLim) as [->|N2]; [reflexivity|].
        destruct o'; try reflexivity; try congruence. cbn. unfold reg. cbn. destruct (e =? 0) eqn:E0; auto.
      * intros _. split; [reflexivity|]. intros o' Ho'. unfold oupd. destruct (owner_eq_dec o' OCont) as [->|N]; [reflexivity|].
        destruct o'; try reflexivity; try congruence. cbn. unfold reg. cbn. destruct (e =? 0) eqn:E0; auto.
      * cbn. rewrite Ec. congruence.
      * cbn. apply (i_dir _ _ _ _ _ H1).
      * cbn. apply (i_mfc _ _ _ _ _ H1).
    + eapply Frame_trans; [apply FatOnly_Frame; exact F|]. constructor; auto.
      * intros e He. cbn. replace (e =? 0) with false by lia. auto.
      * exists [i]. cbn. rewrite Ec. reflexivity.
    + exists i. rewrite <- E3. reflexivity.
    + cbn. auto.
    + cbn. auto.
  - eexists. split; [reflexivity|]. split; [|split; [|split; [|split]]].
    + apply Inv0_link with (s := s1) (ch := ch) (i := i) (o := OCont); auto; try (repeat split; auto; fail).
      * split; discriminate.
      * intros o'. unfold oupd. destruct (owner_eq_dec o' OCont) as [->|N]; [cbn; rewrite Ec; reflexivity|].
        destruct (owner_eq_dec o' OLim) as [->|N2]; [reflexivity|].
        destruct o'; try reflexivity; congruence.
      * cbn. rewrite Ec. discriminate.
      * intros _. split; [cbn; rewrite Ec; reflexivity|]. intros o' Ho'. destruct o'; reflexivity.
      * cbn. apply (i_dir _ _ _ _ _ H1).
      * cbn. apply (i_mfc _ _ _ _ _ H1).
    + eapply Frame_trans; [apply FatOnly_Frame; exact F|]. constructor; auto.
      exists [i]. cbn. rewrite Ec. reflexivity.
    + exists i. rewrite <- E3. reflexivity.
    + cbn. auto.
    + cbn. auto.
Qed.

(** ** Mini sectors *)
Lemma zseq_app : forall a n m, 0 <= n -> 0 <= m -> zseq a (n + m) = zseq a n ++ zseq (a + n) m.
Proof.
  intros a n m Hn Hm. apply znth_ext.
  - rewrite zlen_app, !zlen_zseq; lia.
  - intros j Hj. rewrite zlen_zseq in Hj by lia.
    destruct (Z.lt_ge_cases j n).
    + rewrite znth_app1 by (rewrite zlen_zseq; lia). rewrite !znth_zseq by lia. auto.
    + rewrite znth_app2 by (rewrite zlen_zseq; lia). rewrite zlen_zseq by lia. rewrite !znth_zseq by lia. f_equal. lia.
Qed.

Lemma zseq_cons : forall a n, 0 < n -> zseq a n = a :: zseq (a + 1) (n - 1).
Proof. intros a n H. replace n with (1 + (n - 1)) at 1 by lia. rewrite zseq_app by lia. replace (zseq a 1) with [a]; [reflexivity|]. apply znth_ext; [rewrite zlen_zseq by lia; reflexivity|]. intros i Hi. change (zlen [a]) with 1 in Hi. rewrite znth_zseq by lia. replace i with 0 by lia. rewrite Z.add_0_r. reflexivity. Qed.

Lemma zseq_nil : forall a n, n <= 0 -> zseq a n = [].
Proof. intros. unfold zseq. replace (Z.to_nat n) with 0%nat by lia. reflexivity. Qed.

Lemma per_sector : forall s ch fl ml hw, Inv0 s ch fl ml hw -> 1 <= ss s / mss s /\ mss s <= ss s.
Proof.
  intros s ch fl ml hw [A1 A2 A3]. pose proof (Z.div_mod (ss s) (mss s) ltac:(lia)) as E. rewrite A3 in E.
  remember (ss s / mss s) as q eqn:Eq. clear Eq A3. assert (1 <= q) by nia. split; nia.
Qed.

Lemma mini_extend : forall s ch fl hw n, Inv0 s ch fl [] hw -> 0 <= n -> zlen (minifat s) + n <= MAXREGSECT ->
  Inv0 (set_mfree (set_minifat s (minifat s ++ repeat FREESECT (Z.to_nat n))) (mfree s ++ zseq (zlen (minifat s)) n)) ch fl [] hw.
Proof.
  intros s ch fl hw n H Hn Hcap. set (s' := set_mfree _ _). set (L := zlen (minifat s)) in *.
  destruct H as [A1 A2 A3 HT A5 HC A7 HR A9 A10 A11 A12 A13].
  assert (El : zlen (minifat s') = L + n) by (cbn; rewrite zlen_app, zlen_repeat; fold L; lia).
  assert (Eo : forall o, mowned s' ch [] o = oupd (mowned s ch []) OFree (mowned s ch [] OFree ++ zseq L n) o).
  { intros o. unfold oupd. destruct (owner_eq_dec o OFree) as [->|N2]; [reflexivity|]. destruct o; try reflexivity; congruence. }
  assert (Hnew : forall x, L <= x < L + n -> znth (minifat s') x = Some FREESECT).
  { intros x Hx. cbn [s' minifat set_mfree set_minifat]. rewrite znth_app2 by (fold L; lia). rewrite znth_repeat. fold L.
    replace ((0 <=? x - L) && (x - L <? Z.of_nat (Z.to_nat n))) with true by lia. auto. }
  assert (Hold : forall x, x < L -> znth (minifat s') x = znth (minifat s) x).
  { intros x Hx. cbn [s' minifat set_mfree set_minifat]. apply znth_app1. auto. }
  constructor; auto.
  - eapply TInv_ext; [exact Eo| |apply T_extend with (tbl := minifat s)]; auto.
    + fold L. lia.
    + intros x Hx. apply Hold. fold L in Hx. lia.
    + apply NoDup_zseq.
    + intros x Hx. apply In_zseq in Hx. split; [fold L; lia|]. apply Hnew. lia.
  - intros x v Hv. pose proof (znth_Some _ _ _ _ Hv) as Hx. rewrite El in Hx. destruct (Z.lt_ge_cases x L).
    + rewrite Hold in Hv by lia. destruct (A7 x v Hv) as [[o Ho]|[]]. left. exists o. rewrite Eo. unfold oupd.
      destruct (owner_eq_dec o OFree); auto. subst. apply in_or_app. auto.
    + left. exists OFree. rewrite Eo, oupd_same. apply in_or_app. right. apply In_zseq. lia.
  - destruct A10 as (A & B1 & B2 & B3 & B4). exists A. rewrite El. fold L in B1, B2. split; [|split; [lia|split; auto]].
    + cbn [s' mfree set_mfree]. rewrite B1, <- app_assoc. f_equal.
      replace (L + n - hw) with ((L - hw) + n) by lia. rewrite zseq_app by lia. f_equal. f_equal. lia.
    + intros o x Ho Hx. apply (B4 o x Ho). rewrite Eo in Hx. rewrite oupd_other in Hx by auto. auto.
Qed.

Lemma grow_minifat_spec : forall s ch hw, Inv0 s ch [] [] hw ->
  grow_minifat s = Err Overflow \/
  exists s', grow_minifat s = Ok s' /\ Inv0 s' ch [] [] hw /\ Frame s s' /\ mini_chain s' = mini_chain s /\
    mfree s' = mfree s ++ zseq (zlen (minifat s)) (ss s / 4).
Proof.
  intros s ch hw H. unfold grow_minifat. destruct (zlen (minifat s) + ss s / 4 <=? MAXREGSECT) eqn:Ecap; [|left; reflexivity].
  destruct (next_free_sect_spec s ch [] hw H) as [->|(s1 & i & -> & F & H1)]; [left; reflexivity|right].
  cbn [bind]. pose proof (FatOnly_fields _ _ F) as ((C1 & _) & _ & E1 & E2 & _ & Emc & Emch & E3 & E4 & _ & _ & E5 & _).
  set (n := ss s1 / 4). assert (Hn : 0 <= n) by (pose proof (i_ss _ _ _ _ _ H1); unfold n; lia).
  cbn [minifat_cnt set_mfree set_minifat minifat_chain minifat_start].
  pose proof (i_mfc _ _ _ _ _ H1) as Hmc. pose proof (zlen_nonneg _ (minifat_chain s1)).
  destruct (minifat_cnt s1 =? 0) eqn:E0.
  - assert (Ech : minifat_chain s1 = []) by (destruct (minifat_chain s1); auto; rewrite zlen_cons in Hmc; pose proof (zlen_nonneg _ l); lia).
    cbn [bind]. set (sl := set_fat (set_minifat_chain s1 (minifat_chain s1 ++ [i]) i 1) (zupd (fat s1) i ENDOFCHAIN)).
    assert (Hl : Inv0 sl ch [] [] hw).
    { apply Inv0_link with (s := s1) (ch := ch) (i := i) (o := OMFat); auto; try (repeat split; auto; fail).
      - split; discriminate.
      - intros o'. unfold oupd. destruct (owner_eq_dec o' OMFat) as [->|N]; [reflexivity|].
        destruct (owner_eq_dec o' OLim) as [->|N2]; [reflexivity|].
        destruct o'; try reflexivity; congruence.
      - intros _. split; [reflexivity|]. intros o' Ho'. unfold oupd. destruct (owner_eq_dec o' OMFat) as [->|N]; [reflexivity|].
        destruct o'; try reflexivity; congruence.
      - cbn. rewrite Ech. congruence.
      - cbn. apply (i_dir _ _ _ _ _ H1).
      - cbn. rewrite Ech. reflexivity. }
    eexists. split; [reflexivity|].
    pose proof (mini_extend sl ch [] hw n Hl Hn) as Hx. cbn [sl minifat set_fat set_minifat_chain mfree] in Hx.
    split; [|split; [|split]].
    + apply Hx. rewrite E1. unfold n. rewrite C1. lia.
    + eapply Frame_trans; [apply FatOnly_Frame; exact F|]. constructor; auto. exists []. rewrite app_nil_r. reflexivity.
    + cbn. auto.
    + cbn. unfold n. rewrite E2, E1, C1. reflexivity.
  - destruct (minifat_chain s1) as [|c cs] eqn:Ech; [change (zlen (@nil Z)) with 0 in *; lia|].
    cbn [bind]. rewrite <- Ech in *.
    set (sl := set_fat (set_minifat_chain (set_fat s1 (zupd (fat s1) (last (minifat_chain s1) 0) i)) (minifat_chain s1 ++ [i]) (minifat_start s1) (minifat_cnt s1 + 1))
                 (zupd (zupd (fat s1) (last (minifat_chain s1) 0) i) i ENDOFCHAIN)).
    assert (Hl : Inv0 sl ch [] [] hw).
    { apply Inv0_link with (s := s1) (ch := ch) (i := i) (o := OMFat); auto; try (repeat split; auto; fail).
      - split; discriminate.
      - intros o'. unfold oupd. destruct (owner_eq_dec o' OMFat) as [->|N]; [reflexivity|].
        destruct (owner_eq_dec o' OLim) as [->|N2]; [reflexivity|].
        destruct o'; try reflexivity; congruence.
      - cbn. rewrite Ech. discriminate.
      - intros _. split; [reflexivity|]. intros o' Ho'. destruct o'; try reflexivity. cbn. rewrite E0.
        replace (minifat_cnt s1 + 1 =? 0) with false by lia. auto.
      - cbn. apply (i_dir _ _ _ _ _ H1).
      - cbn. rewrite zlen_app. change (zlen [i]) with 1. lia. }
    eexists. split; [reflexivity|].
    pose proof (mini_extend sl ch [] hw n Hl Hn) as Hx. cbn [sl minifat set_fat set_minifat_chain mfree] in Hx.
    split; [|split; [|split]].
    + apply Hx. rewrite E1. unfold n. rewrite C1. lia.
    + eapply Frame_trans; [apply FatOnly_Frame; exact F|]. constructor; auto. exists []. rewrite app_nil_r. reflexivity.
    + cbn. auto.
    + cbn. unfold n. rewrite E2, E1, C1. reflexivity.
Qed.

(** taking the head of the mini free list *)
Lemma mini_pop : forall s ch hw i rest, Inv0 s ch [] [] hw -> mfree s = i :: rest ->
  exists hw', Inv0 (set_mfree s rest) ch [] [i] hw' /\ ((i < hw /\ hw' = hw) \/ (i = hw /\ hw' = hw + 1)).
Proof.
  intros s ch hw i rest H E. set (s' := set_mfree s rest).
  destruct H as [A1 A2 A3 HT A5 HC A7 HR A9 A10 A11 A12 A13].
  assert (Eo : forall o, mowned s' ch [i] o = oupd (oupd (mowned s ch []) OFree rest) OLim [i] o).
  { intros o. unfold oupd. destruct (owner_eq_dec o OLim) as [->|N1]; [reflexivity|].
    destruct (owner_eq_dec o OFree) as [->|N2]; [reflexivity|]. destruct o; try reflexivity; congruence. }
  destruct A10 as (A & B1 & B2 & B3 & B4).
  assert (HM : exists hw', MFree s' ch [i] hw' /\ ((i < hw /\ hw' = hw) \/ (i = hw /\ hw' = hw + 1))).
  { destruct A as [|a A].
    - cbn in B1. assert (Hlt : 0 < zlen (minifat s) - hw).
      { destruct (Z.lt_ge_cases 0 (zlen (minifat s) - hw)); auto. rewrite zseq_nil in B1 by lia. congruence. }
      rewrite zseq_cons in B1 by lia. rewrite E in B1. inversion B1; subst i rest. exists (hw + 1). split; [|auto].
      exists []. cbn [app]. split; [cbn; f_equal; lia|]. split; [cbn; lia|]. split; [intros x []|].
      intros o x Ho Hx. rewrite Eo in Hx. unfold oupd in Hx. destruct (owner_eq_dec o OLim).
      + destruct Hx as [<-|[]]. lia.
      + destruct (owner_eq_dec o OFree); [congruence|]. specialize (B4 o x Ho Hx). lia.
    - cbn in B1. rewrite E in B1. inversion B1; subst a rest. assert (i < hw) by (apply B3; left; auto).
      exists hw. split; [|auto]. exists A. split; [reflexivity|]. split; [auto|]. split; [intros; apply B3; right; auto|].
      intros o x Ho Hx. rewrite Eo in Hx. unfold oupd in Hx. destruct (owner_eq_dec o OLim).
      + destruct Hx as [<-|[]]. lia.
      + destruct (owner_eq_dec o OFree); [congruence|]. specialize (B4 o x Ho Hx). lia. }
  destruct HM as [hw' [HM Hor]]. exists hw'. split; [|auto]. constructor; auto.
  - eapply TInv_ext; [exact Eo| |apply T_empty_lim]; auto.
  - intros x v Hv. destruct (A7 x v Hv) as [[o Ho]|[]].
    left. destruct (owner_eq_dec o OFree) as [->|N].
    + cbn in Ho. rewrite E in Ho. destruct Ho as [->|Ho]; [exists OLim; left; auto|exists OFree; auto].
    + exists o. rewrite Eo. rewrite !oupd_other; auto. intros ->. destruct Ho.
Qed.

Lemma next_free_minifat_spec : forall s ch hw, Inv0 s ch [] [] hw -> hw <= cover s ->
  next_free_minifat_sect s = Err Overflow \/
  exists s' i hw', next_free_minifat_sect s = Ok (s', i) /\ Inv0 s' ch [] [i] hw' /\ hw' <= cover s' /\ Frame s s' /\ hw <= hw'.
Proof.
  intros s ch hw H Hc. unfold next_free_minifat_sect.
  assert (Hpop : forall n s1 i rest, Inv0 s1 ch [] [] hw -> hw <= cover s1 -> mfree s1 = i :: rest -> Frame s s1 ->
    next_free_minifat_sect_f (S n) s1 = Err Overflow \/
    exists s' i hw', next_free_minifat_sect_f (S n) s1 = Ok (s', i) /\ Inv0 s' ch [] [i] hw' /\ hw' <= cover s' /\ Frame s s' /\ hw <= hw').
  { intros n s1 i rest H1 Hc1 E F. cbn [next_free_minifat_sect_f]. rewrite E.
    pose proof (ti_free _ _ _ (i_mt _ _ _ _ _ H1) OFree i) as Hfree.
    cbn [mowned] in Hfree. rewrite E in Hfree. rewrite Hfree; [|intros []; congruence|left; auto].
    rewrite Z.eqb_refl. cbn [bind]. destruct (mini_pop s1 ch hw i rest H1 E) as [hw' [H2 Hor]].
    assert (F2 : Frame s (set_mfree s1 rest)).
    { eapply Frame_trans; [exact F|]. constructor; auto. exists []. rewrite app_nil_r. reflexivity. }
    fold (cover s1). destruct (cover s1 <? i + 1) eqn:Eg.
    - destruct (mini_stream_grow_spec _ _ _ _ H2) as [->|(s3 & E3 & H3 & F3 & [j Ej] & _)]; [left; reflexivity|right].
      rewrite E3. cbn [bind]. exists s3, i, hw'. split; auto. split; auto. split; [|split; [eapply Frame_trans; eauto|lia]].
      unfold cover. rewrite Ej, zlen_app. change (zlen [j]) with 1.
      assert (Es : ss s3 = ss s1 /\ mss s3 = mss s1) by (split; [rewrite (f_ss _ _ F3)|rewrite (f_mss _ _ F3)]; reflexivity).
      destruct Es as [-> ->]. cbn [mini_chain set_mfree]. pose proof (per_sector _ _ _ _ _ H1). unfold cover in *. lia.
    - right. exists (set_mfree s1 rest), i, hw'. split; auto. split; auto. split; [|split; [auto|lia]]. unfold cover in *. cbn. lia. }
  destruct (mfree s) as [|i rest] eqn:E.
  - destruct (grow_minifat_spec s ch hw H) as [Hov|(s1 & E1 & H1 & F1 & Ec & Ef)].
    + left. cbn [next_free_minifat_sect_f]. rewrite E, Hov. reflexivity.
    + assert (Hstep : next_free_minifat_sect_f 2 s = next_free_minifat_sect_f 1 s1).
      { change (next_free_minifat_sect_f 2 s) with
         (match mfree s with
          | i :: rest => match znth (minifat s) i with
             | None => Err IndexError
             | Some v => guard (v =? FREESECT) else AssertionError ;;
               let s1 := set_mfree s rest in
               if zlen (mini_chain s) * (ss s / mss s) <? i + 1 then do s2 <- mini_stream_grow s1 ;; Ok (s2, i) else Ok (s1, i)
             end
          | [] => do s1 <- grow_minifat s ;; next_free_minifat_sect_f 1 s1 end). rewrite E, E1. reflexivity. }
      rewrite Hstep. rewrite E in Ef. cbn [app] in Ef.
      rewrite zseq_cons in Ef by (pose proof (i_ss _ _ _ _ _ H); lia).
      eapply Hpop; eauto. unfold cover in *. rewrite Ec, (f_ss _ _ F1), (f_mss _ _ F1). auto.
  - eapply Hpop; eauto. apply Frame_refl.
Qed.

(** ** Linking a mini sector *)
Lemma Inv0_link_mini : forall s s' ch ch' hw i o, Inv0 s ch [] [i] hw -> chain_owner o ->
  SameCore s s' -> SameDifat s s' -> FatSame s s' ch ch' [] ->
  (forall o', mowned s' ch' [] o' = oupd (oupd (mowned s ch [i]) OLim []) o (mowned s ch [i] o ++ [i]) o') ->
  (mowned s ch [i] o = [] -> minifat s' = zupd (minifat s) i ENDOFCHAIN /\
     (forall o', chain_owner o' -> mstart s' o' = oupd (mstart s) o (Some i) o')) ->
  (mowned s ch [i] o <> [] -> minifat s' = zupd (zupd (minifat s) (last (mowned s ch [i] o) 0) i) i ENDOFCHAIN /\
     (forall o', chain_owner o' -> mstart s' o' = mstart s o')) ->
  dir_chain s' = dir_chain s -> minifat_cnt s' = zlen (minifat_chain s') ->
  Inv0 s' ch' [] [] hw.
Proof.
  intros s s' ch ch' hw i o H Ho SC SD (FS1 & FS2 & FS3) Eo Hnew Happ Hdir Hmfc.
  pose proof SC as (C1 & C2 & C3 & C4). destruct H as [A1 A2 A3 A4 HT A6 HC HR A9 A10 A11 A12 A13].
  assert (Hi : In i (mowned s ch [i] OLim)) by (left; auto).
  assert (HTC : TInv (minifat s') (mowned s' ch' []) (mstart s') /\ zlen (minifat s') = zlen (minifat s) /\
     (forall x v, znth (minifat s') x = Some v -> (exists o, In x (mowned s ch [i] o)) \/ znth (minifat s) x = Some v)).
  { destruct (list_eq_dec Z.eq_dec (mowned s ch [i] o) []) as [En|Nn].
    - destruct (Hnew En) as [Ef Es]. split; [|split].
      + rewrite Ef. eapply TInv_ext; [| |apply (T_link_new _ _ _ HT i o); auto].
        * intros o'. rewrite Eo, En. reflexivity.
        * auto.
      + rewrite Ef. apply zlen_zupd.
      + intros x v. rewrite Ef, znth_zupd. destruct ((i =? x) && (0 <=? i) && (i <? zlen (minifat s))) eqn:E; auto.
        intros _. left. exists OLim. assert (i = x) by lia. subst. auto.
    - destruct (Happ Nn) as [Ef Es].
      set (l := last (mowned s ch [i] o) 0) in *.
      assert (Hlin : In l (mowned s ch [i] o)) by (apply last_In; auto).
      split; [|split].
      + rewrite Ef. eapply TInv_ext; [| |apply (T_link_app _ _ _ HT i o); auto]; auto.
      + rewrite Ef. rewrite !zlen_zupd. auto.
      + intros x v. rewrite Ef, !znth_zupd, !zlen_zupd.
        destruct ((i =? x) && (0 <=? i) && (i <? zlen (minifat s))) eqn:E.
        { intros _. left. exists OLim. assert (i = x) by lia. subst. auto. }
        destruct ((l =? x) && (0 <=? l) && (l <? zlen (minifat s))) eqn:E2; auto.
        intros _. left. exists o. assert (l = x) by lia. subst x. auto. }
  destruct HTC as [HT' [Hlen Hv]].
  constructor; auto; try (rewrite ?C1, ?C2; assumption).
  - rewrite FS1. eapply TInv_ext; eauto.
  - rewrite FS1. eapply Cov_move; [| |intros x v Hx; right; exact Hx].
    + intros x v Hx. destruct (A6 x v Hx) as [|He]; [left; eauto|]. right. unfold fexc in *. rewrite C1. auto.
    + intros x o' Hx. exists o'. rewrite FS2. auto.
  - eapply Cov_move; [| |exact Hv]; eauto.
    intros x o' Hx. destruct (owner_eq_dec o' OLim) as [->|N1].
    + cbn in Hx. destruct Hx as [<-|[]]. exists o. rewrite Eo, oupd_same. apply in_or_app. right. left. auto.
    + exists o'. rewrite Eo. unfold oupd. destruct (owner_eq_dec o' o) as [->|N2]; [apply in_or_app; auto|].
      destruct (owner_eq_dec o' OLim); [congruence|auto].
  - destruct SD as (D1 & D2 & D3 & D4). apply (RInv_marks s); auto; rewrite FS1; tauto.
  - intros E o' Ho' Hx. rewrite C1 in E. rewrite FS2 in Hx. eapply A9; eauto.
  - destruct A10 as (A & B1 & B2 & B3 & B4). exists A. rewrite Hlen. split; [|split; [auto|split; [auto|]]].
    + rewrite <- B1. specialize (Eo OFree). destruct Ho as [Ho1 Ho2]. rewrite !oupd_other in Eo by congruence. exact Eo.
    + intros o' x Ho' Hx. rewrite Eo in Hx. unfold oupd in Hx. destruct (owner_eq_dec o' o) as [->|N2].
      * apply in_app_or in Hx. destruct Hx as [Hx|[<-|[]]]; [eauto|]. apply (B4 OLim); auto. discriminate.
      * destruct (owner_eq_dec o' OLim); [destruct Hx|]. eauto.
  - eapply cache_same; eauto.
  - congruence.
Qed.

(** ** Extending the chain of a stream or of the directory *)
Definition zput {A} (f : Z -> A) (e : Z) (v : A) : Z -> A := fun j => if j =? e then v else f j.
Lemma zput_same : forall A (f : Z -> A) e v, zput f e v e = v.
Proof. intros. unfold zput. rewrite Z.eqb_refl. auto. Qed.
Lemma zput_other : forall A (f : Z -> A) e v j, j <> e -> zput f e v j = f j.
Proof. intros. unfold zput. replace (j =? e) with false by lia. auto. Qed.

Definition end_of (l : list Z) : option Z := match l with [] => None | _ => Some (last l 0) end.

Lemma chain_end_get : forall tbl start l, zlen tbl <= MAXREGSECT -> linked tbl start l -> l <> [] ->
  get_fat_chain tbl (Some (last l 0)) = Ok [last l 0].
Proof.
  intros tbl [b|] l HL H Hne; cbn in H; [|congruence]. destruct H as [Hs Hc].
  pose proof (chain_from_range _ _ _ Hc (last l 0) (last_In l 0 Hne)) as Hr.
  apply get_chain_Ok.
  - apply special_small. lia.
  - rewrite (app_removelast_last 0 Hne) in Hc. apply chain_suffix in Hc. exact Hc.
Qed.

Lemma end_of_nil : forall l, end_of l = None <-> l = [].
Proof. intros [|a l]; cbn; split; congruence. Qed.

Lemma fca_fat : forall s s1 i o ch ml hw, next_free_sect s = Ok (s1, i) -> Inv0 s1 ch [i] ml hw -> chain_owner o ->
  fat_chain_append s (end_of (fowned s1 ch [i] o)) false =
  Ok (set_fat s1 (match fowned s1 ch [i] o with
                  | [] => zupd (fat s1) i ENDOFCHAIN
                  | _ => zupd (zupd (fat s1) (last (fowned s1 ch [i] o) 0) i) i ENDOFCHAIN end), i).
Proof.
  intros s s1 i o ch ml hw E H Ho. unfold fat_chain_append. rewrite E. cbn [bind].
  pose proof (ti_link _ _ _ (i_ft _ _ _ _ _ H) o Ho) as HL. pose proof (ti_len _ _ _ (i_ft _ _ _ _ _ H)) as Hlen.
  destruct (fowned s1 ch [i] o) as [|c cs] eqn:Ec; [reflexivity|].
  cbn [end_of table]. rewrite (chain_end_get _ _ _ Hlen HL) by discriminate. reflexivity.
Qed.

Lemma fca_mini : forall s s1 i o ch hw, next_free_minifat_sect s = Ok (s1, i) -> Inv0 s1 ch [] [i] hw -> chain_owner o ->
  fat_chain_append s (end_of (mowned s1 ch [i] o)) true =
  Ok (set_minifat s1 (match mowned s1 ch [i] o with
                  | [] => zupd (minifat s1) i ENDOFCHAIN
                  | _ => zupd (zupd (minifat s1) (last (mowned s1 ch [i] o) 0) i) i ENDOFCHAIN end), i).
Proof.
  intros s s1 i o ch hw E H Ho. unfold fat_chain_append. rewrite E. cbn [bind].
  pose proof (ti_link _ _ _ (i_mt _ _ _ _ _ H) o Ho) as HL. pose proof (ti_len _ _ _ (i_mt _ _ _ _ _ H)) as Hlen.
  destruct (mowned s1 ch [i] o) as [|c cs] eqn:Ec; [reflexivity|].
  cbn [end_of table]. rewrite (chain_end_get _ _ _ Hlen HL) by discriminate. reflexivity.
Qed.

(** the effect on the entry: its start sector is set when it had none *)
Definition with_start (s : cfb) (e i : Z) : cfb := match e_sid (ents s e) with None => set_sid s e (Some i) | Some _ => s end.

Lemma with_start_same : forall s e i, exists en, with_start s e i = set_ents s en /\
  (forall j, e_size (en j) = e_size (ents s j)) /\ (forall j, j <> e -> en j = ents s j) /\
  e_sid (en e) = match e_sid (ents s e) with None => Some i | Some b => Some b end.
Proof.
  intros s e i. unfold with_start. destruct (e_sid (ents s e)) eqn:E.
  - exists (ents s). split; [destruct s; reflexivity|]. auto.
  - exists (fun j => if j =? e then mkent (Some i) (e_size (ents s e)) else ents s j). split; [reflexivity|].
    split; [|split].
    + intros j. destruct (j =? e) eqn:Ej; auto. assert (j = e) by lia. subst. auto.
    + intros j Hj. replace (j =? e) with false by lia. auto.
    + rewrite Z.eqb_refl. reflexivity.
Qed.

Lemma append_reg : forall s ch hw e, Inv0 s ch [] [] hw -> reg s e = true ->
  fat_chain_append s (end_of (ch e)) false = Err Overflow \/
  exists s1 i, fat_chain_append s (end_of (ch e)) false = Ok (s1, i) /\
    Frame s s1 /\ mini_chain s1 = mini_chain s /\ Inv0 (with_start s1 e i) (zput ch e (ch e ++ [i])) [] [] hw.
Proof.
  intros s ch hw e H Hreg.
  destruct (next_free_sect_spec s ch [] hw H) as [Hov|(s1 & i & E & F & H1)].
  { left. unfold fat_chain_append. rewrite Hov. reflexivity. }
  right. pose proof (FatOnly_fields _ _ F) as (_ & Emm & E1 & E2 & _ & _ & _ & E3 & E4 & _ & _ & E5 & _).
  assert (Hreg1 : reg s1 e = true) by (unfold reg in *; rewrite E5, Emm; auto).
  assert (He : e <> 0) by (unfold reg in Hreg; lia).
  assert (Eow : fowned s1 ch [i] (OStr e) = ch e) by (cbn; rewrite Hreg1; auto).
  assert (Ho : chain_owner (OStr e)) by (split; discriminate).
  pose proof (fca_fat s s1 i (OStr e) ch [] hw E H1 Ho) as Hf. rewrite Eow in Hf.
  eexists _, i. split; [exact Hf|].
  set (s2 := set_fat s1 _). split; [|split].
  { eapply Frame_trans; [apply FatOnly_Frame; exact F|]. constructor; auto. exists []. rewrite app_nil_r. reflexivity. }
  { cbn. auto. }
  destruct (with_start_same s2 e i) as (en & -> & Hsz & Hoth & Hsid).
  assert (Hrg : forall j, reg (set_ents s2 en) j = reg s1 j) by (intros; unfold reg; cbn; rewrite Hsz; reflexivity).
  assert (Hmn : forall j, mini (set_ents s2 en) j = mini s1 j) by (intros; unfold mini; cbn; rewrite Hsz; reflexivity).
  assert (Hme : mini s1 e = false) by (unfold mini, reg in *; lia).
  pose proof (ti_link _ _ _ (i_ft _ _ _ _ _ H1) (OStr e) Ho) as HL. rewrite Eow in HL. cbn [fstart] in HL. rewrite Hreg1 in HL.
  pose proof (linked_nil _ _ _ HL) as Hnil.
  apply Inv0_link with (s := s1) (ch := ch) (i := i) (o := OStr e); auto; try (repeat split; auto; fail).
  - split; [reflexivity|]. split.
    + intros []; try reflexivity. cbn [mowned]. rewrite Hmn. unfold zput. destruct (e0 =? e) eqn:Ee; auto.
      assert (e0 = e) by lia. subst. rewrite Hme. auto.
    + intros []; try reflexivity. intros _. cbn [mstart]. rewrite Hmn. cbn. destruct (mini s1 e0) eqn:Em; auto.
      rewrite Hoth; auto. intros ->. congruence.
  - intros o'. unfold oupd. destruct (owner_eq_dec o' (OStr e)) as [->|N].
    + rewrite Eow. cbn [fowned]. rewrite Hrg, Hreg1, zput_same. auto.
    + destruct (owner_eq_dec o' OLim) as [->|N2]; [reflexivity|].
      destruct o'; try reflexivity; try congruence. cbn [fowned]. rewrite Hrg, zput_other by congruence. auto.
  - rewrite Eow. intros En. split; [cbn; rewrite En; reflexivity|].
    intros o' Ho'. unfold oupd. destruct (owner_eq_dec o' (OStr e)) as [->|N].
    + cbn [fstart]. rewrite Hrg, Hreg1. cbn. rewrite Hsid. cbn. rewrite En in Hnil. replace (e_sid (ents s1 e)) with (@None Z); auto.
      symmetry. apply Hnil. auto.
    + destruct o'; try reflexivity.
      * cbn. rewrite Hoth by lia. reflexivity.
      * cbn [fstart]. rewrite Hrg. cbn. rewrite Hoth by congruence. reflexivity.
  - rewrite Eow. intros Nn. split; [cbn; destruct (ch e); [congruence|reflexivity]|].
    intros o' Ho'. destruct o'; try reflexivity.
    + cbn. rewrite Hoth by lia. reflexivity.
    + cbn [fstart]. rewrite Hrg. cbn. destruct (Z.eq_dec e0 e) as [->|N]; [|rewrite Hoth by congruence; reflexivity].
      rewrite Hsid. cbn. destruct (e_sid (ents s1 e)) eqn:Es; auto. exfalso. apply Nn. apply Hnil. auto.
  - cbn. apply (i_dir _ _ _ _ _ H1).
  - cbn. apply (i_mfc _ _ _ _ _ H1).
Qed.

Lemma append_mini : forall s ch hw e, Inv0 s ch [] [] hw -> hw <= cover s -> mini s e = true ->
  fat_chain_append s (end_of (ch e)) true = Err Overflow \/
  exists s1 i hw', fat_chain_append s (end_of (ch e)) true = Ok (s1, i) /\
    Frame s s1 /\ Inv0 (with_start s1 e i) (zput ch e (ch e ++ [i])) [] [] hw' /\ hw' <= cover s1.
Proof.
  intros s ch hw e H Hc Hmini.
  destruct (next_free_minifat_spec s ch hw H Hc) as [Hov|(s1 & i & hw' & E & H1 & Hc1 & F & _)].
  { left. unfold fat_chain_append. rewrite Hov. reflexivity. }
  right. 
  assert (He : e <> 0) by (unfold mini in Hmini; lia).
  assert (Hmini1 : mini s1 e = true) by (unfold mini in *; rewrite (f_ents _ _ F), (f_mmax _ _ F); auto).
  assert (Eow : mowned s1 ch [i] (OStr e) = ch e) by (cbn; rewrite Hmini1; auto).
  assert (Ho : chain_owner (OStr e)) by (split; discriminate).
  pose proof (fca_mini s s1 i (OStr e) ch hw' E H1 Ho) as Hf. rewrite Eow in Hf.
  eexists _, i, hw'. split; [exact Hf|].
  set (s2 := set_minifat s1 _). split; [|split].
  { eapply Frame_trans; [exact F|]. constructor; auto. exists []. rewrite app_nil_r. reflexivity. }
  2:{ exact Hc1. }
  destruct (with_start_same s2 e i) as (en & -> & Hsz & Hoth & Hsid).
  assert (Hrg : forall j, reg (set_ents s2 en) j = reg s1 j) by (intros; unfold reg; cbn; rewrite Hsz; reflexivity).
  assert (Hmn : forall j, mini (set_ents s2 en) j = mini s1 j) by (intros; unfold mini; cbn; rewrite Hsz; reflexivity).
  assert (Hre : reg s1 e = false) by (unfold mini, reg in *; lia).
  pose proof (ti_link _ _ _ (i_mt _ _ _ _ _ H1) (OStr e) Ho) as HL. rewrite Eow in HL. cbn [mstart] in HL. rewrite Hmini1 in HL.
  pose proof (linked_nil _ _ _ HL) as Hnil.
  apply Inv0_link_mini with (s := s1) (ch := ch) (i := i) (o := OStr e); auto; try (repeat split; auto; fail).
  - split; [reflexivity|]. split.
    + intros []; try reflexivity. cbn [fowned]. rewrite Hrg. unfold zput. destruct (e0 =? e) eqn:Ee; auto.
      assert (e0 = e) by lia. subst. rewrite Hre. auto.
    + intros []; try reflexivity.
      * intros _. cbn. rewrite Hoth by lia. reflexivity.
      * intros _. cbn [fstart]. rewrite Hrg. cbn. destruct (reg s1 e0) eqn:Em; auto. rewrite Hoth; auto. intros ->. congruence.
  - intros o'. unfold oupd. destruct (owner_eq_dec o' (OStr e)) as [->|N].
    + rewrite Eow. cbn [mowned]. rewrite Hmn, Hmini1, zput_same. auto.
    + destruct (owner_eq_dec o' OLim) as [->|N2]; [reflexivity|].
      destruct o'; try reflexivity; try congruence. cbn [mowned]. rewrite Hmn, zput_other by congruence. auto.
  - rewrite Eow. intros En. split; [cbn; rewrite En; reflexivity|].
    intros o' Ho'. unfold oupd. destruct (owner_eq_dec o' (OStr e)) as [->|N].
    + cbn [mstart]. rewrite Hmn, Hmini1. cbn. rewrite Hsid. cbn. rewrite En in Hnil. replace (e_sid (ents s1 e)) with (@None Z); auto.
      symmetry. apply Hnil. auto.
    + destruct o'; try reflexivity. cbn [mstart]. rewrite Hmn. cbn. rewrite Hoth by congruence. reflexivity.
  - rewrite Eow. intros Nn. split; [cbn; destruct (ch e); [congruence|reflexivity]|].
    intros o' Ho'. destruct o'; try reflexivity.
    cbn [mstart]. rewrite Hmn. cbn. destruct (Z.eq_dec e0 e) as [->|N]; [|rewrite Hoth by congruence; reflexivity].
    rewrite Hsid. cbn. destruct (e_sid (ents s1 e)) eqn:Es; auto. exfalso. apply Nn. apply Hnil. auto.
  - cbn. apply (i_mfc _ _ _ _ _ H1).
Qed.

(** extending the directory chain (cfb.py:1746-1753) *)
Lemma append_dir : forall s ch hw, Inv0 s ch [] [] hw ->
  fat_chain_append s (Some (last (dir_chain s) 0)) false = Err Overflow \/
  exists s1 i, fat_chain_append s (Some (last (dir_chain s) 0)) false = Ok (s1, i) /\
    Frame s s1 /\ mini_chain s1 = mini_chain s /\
    (forall n fr, Inv0 (set_dir s1 (dir_chain s1 ++ [i]) n fr) ch [] [] hw).
Proof.
  intros s ch hw H.
  destruct (next_free_sect_spec s ch [] hw H) as [Hov|(s1 & i & E & F & H1)].
  { left. unfold fat_chain_append. rewrite Hov. reflexivity. }
  right. pose proof (FatOnly_fields _ _ F) as (_ & Emm & E1 & E2 & _ & _ & _ & E3 & E4 & _ & _ & E5 & _).
  assert (Ho : chain_owner ODir) by (split; discriminate).
  pose proof (fca_fat s s1 i ODir ch [] hw E H1 Ho) as Hf. cbn [fowned] in Hf.
  pose proof (i_dir _ _ _ _ _ H1) as Hne. destruct (dir_chain s1) as [|c cs] eqn:Ec; [congruence|].
  cbn [end_of] in Hf. rewrite <- E4. eexists _, i. split; [exact Hf|]. split; [|split].
  { eapply Frame_trans; [apply FatOnly_Frame; exact F|]. constructor; auto. exists []. rewrite app_nil_r. reflexivity. }
  { cbn. auto. }
  intros n fr. apply Inv0_link with (s := s1) (ch := ch) (i := i) (o := ODir); auto; try (repeat split; auto; fail).
  - intros o'. unfold oupd. destruct (owner_eq_dec o' ODir) as [->|N].
    + cbn. reflexivity.
    + destruct (owner_eq_dec o' OLim) as [->|N2]; [reflexivity|]. destruct o'; try reflexivity; congruence.
  - cbn. rewrite Ec. discriminate.
  - intros _. cbn. rewrite Ec. split; [reflexivity|]. intros o' Ho'. destruct o'; try reflexivity. cbn. rewrite Ec. reflexivity.
  - cbn. rewrite Ec. discriminate.
  - cbn. apply (i_mfc _ _ _ _ _ H1).
Qed.

(** ** Freeing *)
Lemma Inv0_free_o : forall s s' ch ch' hw oo l1 l2, chain_owner oo -> Inv0 s ch [] [] hw -> fowned s ch [] oo = l1 ++ l2 ->
  SameCore s s' -> SameDifat s s' -> MiniSame s s' ch ch' [] ->
  (forall o', fowned s' ch' [] o' = oupd (oupd (fowned s ch []) OFree (rev l2 ++ ffree s)) oo l1 o') ->
  fat s' = match l1 with [] => free_all (fat s) l2 | _ => zupd (free_all (fat s) l2) (last l1 0) ENDOFCHAIN end ->
  (forall o', chain_owner o' -> fstart s' o' = oupd (fstart s) oo (match l1 with [] => None | _ => fstart s oo end) o') ->
  dir_chain s' <> [] -> minifat_cnt s' = zlen (minifat_chain s') ->
  Inv0 s' ch' [] [] hw.
Proof.
  intros s s' ch ch' hw oo l1 l2 Ho H El SC SD MS Eo Ef Es Hdir Hmfc.
  pose proof SC as (C1 & C2 & C3 & C4). destruct H as [A1 A2 A3 HT A5 HC A7 HR A9 A10 A11 A12 A13].
  assert (Hall : forall x, In x l1 \/ In x l2 -> In x (fowned s ch [] oo)) by (intros; rewrite El; apply in_or_app; auto).
  pose proof (owned_nomark _ _ _ HT oo) as Hnm.
  assert (Hmark : forall M, M = FATSECT \/ M = DIFSECT -> forall y, znth (fat s') y = Some M <-> znth (fat s) y = Some M).
  { intros M HM y.
    assert (Hf : znth (free_all (fat s) l2) y = Some M <-> znth (fat s) y = Some M).
    { apply mark_free_all; [destruct HM; subst; discriminate|]. intros x Hx E.
      destruct (Hnm x (Hall x (or_intror Hx))) as [N1 N2]. destruct HM; subst; congruence. }
    rewrite Ef. destruct l1 as [|a l1]; auto. rewrite <- Hf.
    assert (Hl : In (last (a :: l1) 0) (a :: l1)) by (apply last_In; discriminate).
    set (l := last (a :: l1) 0) in *. assert (Hlf : In l (fowned s ch [] oo)) by auto.
    pose proof (TInv_range _ _ _ HT _ _ Hlf) as Hr.
    destruct (znth_in_range _ (free_all (fat s) l2) l) as [w Hw]; [rewrite zlen_free_all; auto|].
    apply mark_upd with w; auto; [|destruct HM; subst; discriminate].
    intros ->. assert (Hl2 : ~ In l l2).
    { intro Hx. pose proof (ti_nodup _ _ _ HT oo) as ND. rewrite El in ND. apply NoDup_app_iff in ND.
      destruct ND as (_ & _ & ND). eapply ND; eauto. }
    rewrite znth_free_all_notin in Hw by auto. destruct (Hnm l Hlf) as [N1 N2]. destruct HM; subst; congruence. }
  constructor; auto; try (rewrite ?C1, ?C2; assumption).
  - rewrite Ef. eapply TInv_ext; [exact Eo|exact Es|]. apply (T_free_tail _ _ _ HT oo l1 l2); auto.
  - eapply mini_same_mt; eauto.
  - eapply Cov_move with (tbl := fat s) (own := fowned s ch []).
    + intros x v Hx. destruct (HC x v Hx) as [|He]; [left; eauto|]. right. unfold fexc in *. rewrite C1. auto.
    + intros x o Hx. destruct (owner_eq_dec o oo) as [->|N].
      * rewrite El in Hx. apply in_app_or in Hx. destruct Hx as [Hx|Hx].
        -- exists oo. rewrite Eo, oupd_same. auto.
        -- exists OFree. rewrite Eo, oupd_other, oupd_same by (destruct Ho; congruence). apply in_or_app. left. apply in_rev in Hx. auto.
      * exists o. rewrite Eo, oupd_other by auto. unfold oupd. destruct (owner_eq_dec o OFree); auto.
        subst. apply in_or_app. right. auto.
    + intros x v Hv. destruct (in_dec Z.eq_dec x (l1 ++ l2)) as [Hin|Hin]; [left; exists oo; rewrite El; auto|right].
      rewrite <- Hv, Ef. assert (~ In x l2) by (intro; apply Hin; apply in_or_app; auto).
      destruct l1 as [|a l1]; [symmetry; apply znth_free_all_notin; auto|].
      rewrite znth_zupd_other; [symmetry; apply znth_free_all_notin; auto|].
      intros E. apply Hin. rewrite <- E. apply in_or_app. left. apply last_In. discriminate.
  - eapply mini_same_mc; eauto.
  - destruct SD as (D1 & D2 & D3 & D4). apply (RInv_marks s); auto.
    rewrite Ef. destruct l1; rewrite ?zlen_zupd; apply zlen_free_all.
  - intros E o' Ho' Hx. rewrite C1 in E. rewrite Eo in Hx. unfold oupd in Hx. destruct (owner_eq_dec o' oo) as [->|N].
    + apply (A9 E oo); auto.
    + destruct (owner_eq_dec o' OFree); [congruence|]. eapply A9; eauto.
  - eapply mini_same_hw; eauto.
  - eapply cache_same; eauto.
Qed.

Lemma Inv0_free : forall s s' ch ch' hw e l1 l2, Inv0 s ch [] [] hw -> fowned s ch [] (OStr e) = l1 ++ l2 ->
  SameCore s s' -> SameDifat s s' -> MiniSame s s' ch ch' [] ->
  (forall o', fowned s' ch' [] o' = oupd (oupd (fowned s ch []) OFree (rev l2 ++ ffree s)) (OStr e) l1 o') ->
  fat s' = match l1 with [] => free_all (fat s) l2 | _ => zupd (free_all (fat s) l2) (last l1 0) ENDOFCHAIN end ->
  (forall o', chain_owner o' -> fstart s' o' = oupd (fstart s) (OStr e) (match l1 with [] => None | _ => fstart s (OStr e) end) o') ->
  dir_chain s' <> [] -> minifat_cnt s' = zlen (minifat_chain s') ->
  Inv0 s' ch' [] [] hw.
Proof. intros s s' ch ch' hw e l1 l2. apply Inv0_free_o. split; discriminate. Qed.

Lemma Inv0_free_mini : forall s s' ch ch' hw e l1 l2, Inv0 s ch [] [] hw -> mowned s ch [] (OStr e) = l1 ++ l2 ->
  SameCore s s' -> SameDifat s s' -> FatSame s s' ch ch' [] ->
  (forall o', mowned s' ch' [] o' = oupd (oupd (mowned s ch []) OFree (rev l2 ++ mfree s)) (OStr e) l1 o') ->
  minifat s' = match l1 with [] => free_all (minifat s) l2 | _ => zupd (free_all (minifat s) l2) (last l1 0) ENDOFCHAIN end ->
  (forall o', chain_owner o' -> mstart s' o' = oupd (mstart s) (OStr e) (match l1 with [] => None | _ => mstart s (OStr e) end) o') ->
  dir_chain s' <> [] -> minifat_cnt s' = zlen (minifat_chain s') ->
  Inv0 s' ch' [] [] hw.
Proof.
  intros s s' ch ch' hw e l1 l2 H El SC SD (FS1 & FS2 & FS3) Eo Ef Es Hdir Hmfc.
  pose proof SC as (C1 & C2 & C3 & C4). destruct H as [A1 A2 A3 A4 HT A6 HC HR A9 A10 A11 A12 A13].
  assert (Ho : chain_owner (OStr e)) by (split; discriminate).
  assert (Hall : forall x, In x l1 \/ In x l2 -> In x (mowned s ch [] (OStr e))) by (intros; rewrite El; apply in_or_app; auto).
  assert (Elen : zlen (minifat s') = zlen (minifat s)) by (rewrite Ef; destruct l1; rewrite ?zlen_zupd; apply zlen_free_all).
  constructor; auto; try (rewrite ?C1, ?C2; assumption).
  - rewrite FS1. eapply TInv_ext; eauto.
  - rewrite Ef. eapply TInv_ext; [exact Eo|exact Es|]. apply (T_free_tail _ _ _ HT (OStr e) l1 l2); auto.
  - rewrite FS1. eapply Cov_move; [| |intros x v Hx; right; exact Hx].
    + intros x v Hx. destruct (A6 x v Hx) as [|He]; [left; eauto|]. right. unfold fexc in *. rewrite C1. auto.
    + intros x o' Hx. exists o'. rewrite FS2. auto.
  - eapply Cov_move with (tbl := minifat s) (own := mowned s ch []); eauto.
    + intros x o Hx. destruct (owner_eq_dec o (OStr e)) as [->|N].
      * rewrite El in Hx. apply in_app_or in Hx. destruct Hx as [Hx|Hx].
        -- exists (OStr e). rewrite Eo, oupd_same. auto.
        -- exists OFree. rewrite Eo, oupd_other, oupd_same by discriminate. apply in_or_app. left. apply in_rev in Hx. auto.
      * exists o. rewrite Eo, oupd_other by auto. unfold oupd. destruct (owner_eq_dec o OFree); auto.
        subst. apply in_or_app. right. auto.
    + intros x v Hv. destruct (in_dec Z.eq_dec x (l1 ++ l2)) as [Hin|Hin]; [left; exists (OStr e); rewrite El; auto|right].
      rewrite <- Hv, Ef. assert (~ In x l2) by (intro; apply Hin; apply in_or_app; auto).
      destruct l1 as [|a l1]; [symmetry; apply znth_free_all_notin; auto|].
      rewrite znth_zupd_other; [symmetry; apply znth_free_all_notin; auto|].
      intros E. apply Hin. rewrite <- E. apply in_or_app. left. apply last_In. discriminate.
  - destruct SD as (D1 & D2 & D3 & D4). apply (RInv_marks s); auto; rewrite FS1; tauto.
  - intros E o' Ho' Hx. rewrite C1 in E. rewrite FS2 in Hx. eapply A9; eauto.
  - destruct A10 as (A & B1 & B2 & B3 & B4). exists (rev l2 ++ A). rewrite Elen. split; [|split; [auto|split]].
    + specialize (Eo OFree). rewrite oupd_other, oupd_same in Eo by discriminate. cbn in Eo. rewrite Eo, B1, app_assoc. auto.
    + intros x Hx. apply in_app_or in Hx. destruct Hx as [Hx|Hx]; auto. apply in_rev in Hx. apply (B4 (OStr e)); auto. discriminate.
    + intros o' x Ho' Hx. rewrite Eo in Hx. unfold oupd in Hx. destruct (owner_eq_dec o' (OStr e)) as [->|N].
      * apply (B4 (OStr e)); auto.
      * destruct (owner_eq_dec o' OFree); [congruence|]. eauto.
  - eapply cache_same; eauto.
Qed.

(** ** Entry sizes *)
Lemma Inv0_set_size : forall s ch fl ml hw e v, Inv0 s ch fl ml hw -> e <> 0 ->
  (v <? mmax s) = (e_size (ents s e) <? mmax s) \/ (ch e = [] /\ e_sid (ents s e) = None) ->
  Inv0 (set_size s e v) ch fl ml hw.
Proof.
  intros s ch fl ml hw e v [A1 A2 A3 A4 A5 A6 A7 A8 A9 A10 A11 A12 A13] He Hor.
  assert (Ef : forall o, fowned (set_size s e v) ch fl o = fowned s ch fl o).
  { intros []; try reflexivity. cbn. unfold reg. cbn. destruct (e0 =? e) eqn:E; [|reflexivity]. assert (e0 = e) by lia. subst e0. cbn.
    destruct Hor as [->|[-> _]]; auto. destruct (negb (e =? 0) && _), (negb (e =? 0) && _); auto. }
  assert (Em : forall o, mowned (set_size s e v) ch ml o = mowned s ch ml o).
  { intros []; try reflexivity. cbn. unfold mini. cbn. destruct (e0 =? e) eqn:E; [|reflexivity]. assert (e0 = e) by lia. subst e0. cbn.
    destruct Hor as [->|[-> _]]; auto. destruct (negb (e =? 0) && _), (negb (e =? 0) && _); auto. }
  assert (Efs : forall o, fstart (set_size s e v) o = fstart s o).
  { intros []; try reflexivity.
    - cbn -[Z.eqb]. replace (0 =? e) with false by lia. auto.
    - cbn. unfold reg. cbn. destruct (e0 =? e) eqn:E; [|reflexivity]. assert (e0 = e) by lia. subst e0. cbn.
      destruct Hor as [->|[_ ->]]; auto. destruct (negb (e =? 0) && _), (negb (e =? 0) && _); auto. }
  assert (Ems : forall o, mstart (set_size s e v) o = mstart s o).
  { intros []; try reflexivity. cbn. unfold mini. cbn. destruct (e0 =? e) eqn:E; [|reflexivity]. assert (e0 = e) by lia. subst e0. cbn.
    destruct Hor as [->|[_ ->]]; auto. destruct (negb (e =? 0) && _), (negb (e =? 0) && _); auto. }
  constructor; auto.
  - eapply TInv_ext; eauto.
  - eapply TInv_ext; eauto.
  - intros x y Hx. destruct (A6 x y Hx) as [[o Ho]|]; auto. left. exists o. rewrite Ef. auto.
  - intros x y Hx. destruct (A7 x y Hx) as [[o Ho]|[]]. left. exists o. rewrite Em. auto.
  - intros E o Ho Hx. rewrite Ef in Hx. eapply A9; eauto.
  - destruct A10 as (A & B1 & B2 & B3 & B4). exists A. repeat (split; auto). intros o x Ho Hx. rewrite Em in Hx. eauto.
Qed.

(** freeing the whole chain of a stream (cfb.py:1820-1830 with the caller's sector_id = None) *)
Definition kind (s : cfb) (e : Z) : bool := e_size (ents s e) <? mmax s.

Lemma free_stream : forall s ch hw e, Inv0 s ch [] [] hw -> e <> 0 ->
  exists s1, free_fat_chain s (e_sid (ents s e)) (kind s e) = Ok s1 /\
    Inv0 (set_sid s1 e None) (zput ch e []) [] [] hw /\ Frame s s1 /\ mini_chain s1 = mini_chain s.
Proof.
  intros s ch hw e H He. unfold free_fat_chain, kind. set (k := e_size (ents s e) <? mmax s).
  assert (Ho : chain_owner (OStr e)) by (split; discriminate).
  assert (Hneb : negb (e =? 0) = true) by lia.
  assert (Hmini : mini s e = k) by (unfold mini, k; rewrite Hneb; reflexivity).
  assert (Hreg : reg s e = negb k) by (unfold reg, k; rewrite Hneb; reflexivity).
  assert (Hlink : linked (table s k) (e_sid (ents s e)) (ch e)).
  { destruct k eqn:Ek.
    - pose proof (ti_link _ _ _ (i_mt _ _ _ _ _ H) _ Ho) as HL. cbn in HL. rewrite Hmini in HL. exact HL.
    - pose proof (ti_link _ _ _ (i_ft _ _ _ _ _ H) _ Ho) as HL. cbn in HL. rewrite Hreg in HL. exact HL. }
  rewrite (linked_get _ _ _ Hlink). cbn [bind]. fold (free_all (table s k) (ch e)).
  eexists. split; [reflexivity|].
  assert (Hent : forall s' j, (forall a, ents s' a = ents s a) -> mmax s' = mmax s -> 
     reg (set_sid s' e None) j = reg s j /\ mini (set_sid s' e None) j = mini s j).
  { intros s' j Ee Em. unfold reg, mini. cbn. rewrite Em. destruct (j =? e) eqn:Ej.
    - assert (j = e) by lia. subst. cbn. rewrite Ee. auto.
    - rewrite Ee. auto. }
  destruct k eqn:Ek; cbn [table set_table].
  - split; [|split; [|reflexivity]].
    2:{ constructor; auto. exists []. rewrite app_nil_r. reflexivity. }
    set (s1 := set_mfree _ _). destruct (Hent s1) with (j := 0) as [_ _]; auto.
    assert (Hent1 : forall j, reg (set_sid s1 e None) j = reg s j /\ mini (set_sid s1 e None) j = mini s j) by (intros; apply Hent; auto).
    apply Inv0_free_mini with (s := s) (ch := ch) (e := e) (l1 := []) (l2 := ch e); auto; try (repeat split; auto; fail).
    + cbn. rewrite Hmini. auto.
    + split; [reflexivity|]. split.
      * intros []; try reflexivity. cbn [fowned]. destruct (Hent1 e0) as [-> _]. unfold zput. destruct (e0 =? e) eqn:Ee; auto.
        assert (e0 = e) by lia. subst. rewrite Hreg. auto.
      * intros []; try reflexivity.
        -- intros _. cbn -[Z.eqb]. replace (0 =? e) with false by lia. auto.
        -- intros _. cbn [fstart]. destruct (Hent1 e0) as [-> _]. cbn. destruct (e0 =? e) eqn:Ee; auto.
           assert (e0 = e) by lia. subst. rewrite Hreg. auto.
    + intros o'. unfold oupd. destruct (owner_eq_dec o' (OStr e)) as [->|N].
      * cbn [mowned]. destruct (Hent1 e) as [_ ->]. rewrite zput_same. destruct (mini s e); auto.
      * destruct (owner_eq_dec o' OFree) as [->|N2]; [reflexivity|]. destruct o'; try reflexivity; try congruence.
        cbn [mowned]. destruct (Hent1 e0) as [_ ->]. rewrite zput_other by congruence. auto.
    + intros o' Ho'. unfold oupd. destruct (owner_eq_dec o' (OStr e)) as [->|N].
      * cbn [mstart]. destruct (Hent1 e) as [_ ->]. cbn. rewrite Z.eqb_refl. destruct (mini s e); auto.
      * destruct o'; try reflexivity; try congruence. cbn [mstart]. destruct (Hent1 e0) as [_ ->]. cbn.
        replace (e0 =? e) with false; auto. symmetry. apply Z.eqb_neq. congruence.
    + cbn. apply (i_dir _ _ _ _ _ H).
    + cbn. apply (i_mfc _ _ _ _ _ H).
  - split; [|split; [|reflexivity]].
    2:{ constructor; auto. exists []. rewrite app_nil_r. reflexivity. }
    set (s1 := set_ffree _ _).
    assert (Hent1 : forall j, reg (set_sid s1 e None) j = reg s j /\ mini (set_sid s1 e None) j = mini s j) by (intros; apply Hent; auto).
    apply Inv0_free with (s := s) (ch := ch) (e := e) (l1 := []) (l2 := ch e); auto; try (repeat split; auto; fail).
    + cbn. rewrite Hreg. auto.
    + split; [reflexivity|]. split.
      * intros []; try reflexivity. cbn [mowned]. destruct (Hent1 e0) as [_ ->]. unfold zput. destruct (e0 =? e) eqn:Ee; auto.
        assert (e0 = e) by lia. subst. rewrite Hmini. auto.
      * intros []; try reflexivity. intros _. cbn [mstart]. destruct (Hent1 e0) as [_ ->]. cbn. destruct (e0 =? e) eqn:Ee; auto.
        assert (e0 = e) by lia. subst. rewrite Hmini. auto.
    + intros o'. unfold oupd. destruct (owner_eq_dec o' (OStr e)) as [->|N].
      * cbn [fowned]. destruct (Hent1 e) as [-> _]. rewrite zput_same. destruct (reg s e); auto.
      * destruct (owner_eq_dec o' OFree) as [->|N2]; [reflexivity|]. destruct o'; try reflexivity; try congruence.
        cbn [fowned]. destruct (Hent1 e0) as [-> _]. rewrite zput_other by congruence. auto.
    + intros o' Ho'. unfold oupd. destruct (owner_eq_dec o' (OStr e)) as [->|N].
      * cbn [fstart]. destruct (Hent1 e) as [-> _]. cbn. rewrite Z.eqb_refl. destruct (reg s e); auto.
      * destruct o'; try reflexivity; try congruence.
        -- cbn -[Z.eqb]. replace (0 =? e) with false by lia. auto.
        -- cbn [fstart]. destruct (Hent1 e0) as [-> _]. cbn.
           replace (e0 =? e) with false; auto. symmetry. apply Z.eqb_neq. congruence.
    + cbn. apply (i_dir _ _ _ _ _ H).
    + cbn. apply (i_mfc _ _ _ _ _ H).
Qed.

(** cutting the tail of a chain (cfb.py:358-364) *)
Lemma cut_stream : forall s ch hw e l1 y l2, Inv0 s ch [] [] hw -> e <> 0 -> ch e = l1 ++ y :: l2 -> l1 <> [] ->
  exists s1, free_fat_chain s (Some y) (kind s e) = Ok s1 /\
    Inv0 (set_table s1 (kind s e) (zupd (table s1 (kind s e)) (last l1 0) ENDOFCHAIN)) (zput ch e l1) [] [] hw /\
    Frame s s1 /\ mini_chain s1 = mini_chain s.
Proof.
  intros s ch hw e l1 y l2 H He Ech Hl1. unfold free_fat_chain, kind. set (k := e_size (ents s e) <? mmax s).
  assert (Ho : chain_owner (OStr e)) by (split; discriminate).
  assert (Hneb : negb (e =? 0) = true) by lia.
  assert (Hmini : mini s e = k) by (unfold mini, k; rewrite Hneb; reflexivity).
  assert (Hreg : reg s e = negb k) by (unfold reg, k; rewrite Hneb; reflexivity).
  assert (Hlink : linked (table s k) (e_sid (ents s e)) (ch e) /\ zlen (table s k) <= MAXREGSECT).
  { destruct k eqn:Ek.
    - pose proof (ti_link _ _ _ (i_mt _ _ _ _ _ H) _ Ho) as HL. cbn in HL. rewrite Hmini in HL.
      split; [exact HL|]. apply (ti_len _ _ _ (i_mt _ _ _ _ _ H)).
    - pose proof (ti_link _ _ _ (i_ft _ _ _ _ _ H) _ Ho) as HL. cbn in HL. rewrite Hreg in HL.
      split; [exact HL|]. apply (ti_len _ _ _ (i_ft _ _ _ _ _ H)). }
  destruct Hlink as [Hlink Hlen].
  assert (Hget : get_fat_chain (table s k) (Some y) = Ok (y :: l2)).
  { rewrite Ech in Hlink. destruct (e_sid (ents s e)) as [b|]; cbn in Hlink; [|destruct l1; discriminate].
    destruct Hlink as [_ Hc]. pose proof (chain_from_range _ _ _ Hc y ltac:(apply in_or_app; right; left; auto)) as Hr.
    apply chain_suffix in Hc. apply get_chain_Ok; auto. apply special_small. lia. }
  rewrite Hget. cbn [bind]. fold (free_all (table s k) (y :: l2)).
  destruct l1 as [|a l1']; [congruence|]. set (l1 := a :: l1') in *.
  eexists. split; [reflexivity|].
  destruct k eqn:Ek; cbn [table set_table].
  - split; [|split; [|reflexivity]].
    2:{ constructor; auto. exists []. rewrite app_nil_r. reflexivity. }
    apply Inv0_free_mini with (s := s) (ch := ch) (e := e) (l1 := l1) (l2 := y :: l2); auto; try (repeat split; auto; fail).
    + cbn. rewrite Hmini. auto.
    + split; [reflexivity|]. split; [|intros []; reflexivity].
      intros []; try reflexivity. cbn [fowned]. unfold reg; cbn; fold (reg s e0). unfold zput. destruct (e0 =? e) eqn:Ee; auto.
      assert (e0 = e) by lia. subst. rewrite Hreg. auto.
    + intros o'. unfold oupd. destruct (owner_eq_dec o' (OStr e)) as [->|N].
      * cbn [mowned]. unfold mini; cbn; fold (mini s e). rewrite Hmini, zput_same. auto.
      * destruct (owner_eq_dec o' OFree) as [->|N2]; [reflexivity|]. destruct o'; try reflexivity; try congruence.
        cbn [mowned]. unfold mini; cbn; fold (mini s e0). rewrite zput_other by congruence. auto.
    + intros o' Ho'. unfold oupd. destruct (owner_eq_dec o' (OStr e)) as [->|N]; [reflexivity|]. destruct o'; reflexivity.
    + cbn. apply (i_dir _ _ _ _ _ H).
    + cbn. apply (i_mfc _ _ _ _ _ H).
  - split; [|split; [|reflexivity]].
    2:{ constructor; auto. exists []. rewrite app_nil_r. reflexivity. }
    apply Inv0_free with (s := s) (ch := ch) (e := e) (l1 := l1) (l2 := y :: l2); auto; try (repeat split; auto; fail).
    + cbn. rewrite Hreg. auto.
    + split; [reflexivity|]. split; [|intros []; reflexivity].
      intros []; try reflexivity. cbn [mowned]. unfold mini; cbn; fold (mini s e0). unfold zput. destruct (e0 =? e) eqn:Ee; auto.
      assert (e0 = e) by lia. subst. rewrite Hmini. auto.
    + intros o'. unfold oupd. destruct (owner_eq_dec o' (OStr e)) as [->|N].
      * cbn [fowned]. unfold reg; cbn; fold (reg s e). rewrite Hreg, zput_same. auto.
      * destruct (owner_eq_dec o' OFree) as [->|N2]; [reflexivity|]. destruct o'; try reflexivity; try congruence.
        cbn [fowned]. unfold reg; cbn; fold (reg s e0). rewrite zput_other by congruence. auto.
    + intros o' Ho'. unfold oupd. destruct (owner_eq_dec o' (OStr e)) as [->|N]; [reflexivity|]. destruct o'; reflexivity.
    + cbn. apply (i_dir _ _ _ _ _ H).
    + cbn. apply (i_mfc _ _ _ _ _ H).
Qed.
