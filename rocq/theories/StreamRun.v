(** Driving the model of cfb.py with sequences of operations, and the refinement of StreamSpec. *)
From Verif Require Import Base BaseFacts LRUModel CfbModel ChainSpec ChainProofs TableInv DifatInv CfbInv CfbBytes CfbStream StreamSpec.
From Coq Require Import ZArith List Bool Lia.
Import ListNotations.
Open Scope Z_scope.

(** a client of the library: the file, the handles it holds (one per stream) and the streams it made *)
Record drv : Type := mkd { d_cfb : cfb; d_hs : Z -> option handle; d_live : list Z }.

Definition wh (w : seek_from) : whence := match w with FromStart => SEEK_SET | FromHere => SEEK_CUR | FromEnd => SEEK_END end.

Definition dlegal (d : drv) (o : op) : bool :=
  match o with
  | ONew => true
  | ORemove e | OOpen e | OReset e => existsb (Z.eqb e) (d_live d)
  | ORead e _ | OWrite e _ | OSeek e _ _ => match d_hs d e with Some _ => true | None => false end
  | OTrunc e n => match d_hs d e with Some _ => match n with Some k => 0 <=? k | None => true end | None => false end
  end.

Definition with_h (d : drv) (s : cfb) (e : Z) (h : handle) : drv := mkd s (put (d_hs d) e (Some h)) (d_live d).

Definition call (d : drv) (o : op) : result (drv * obs) :=
  match o with
  | ONew => do (s, i) <- entry_new (d_cfb d) ;; Ok (mkd s (put (d_hs d) i None) (i :: d_live d), VId i)
  | ORemove e => do s <- stream_remove (d_cfb d) e ;; Ok (mkd s (put (d_hs d) e None) (remove Z.eq_dec e (d_live d)), VUnit)
  | OOpen e => do h <- stream_open (d_cfb d) e ;; Ok (with_h d (d_cfb d) e h, VUnit)
  | OReset e => do (s, h) <- stream_reset (d_cfb d) e ;; Ok (with_h d s e h, VUnit)
  | ORead e n => match d_hs d e with None => Err KeyError | Some h =>
      do (s, h1, b) <- stream_read (d_cfb d) h n ;; Ok (with_h d s e h1, VBytes b) end
  | OWrite e b => match d_hs d e with None => Err KeyError | Some h =>
      do (s, h1) <- stream_write (d_cfb d) h b ;; Ok (with_h d s e h1, VUnit) end
  | OSeek e off w => match d_hs d e with None => Err KeyError | Some h =>
      match stream_seek (d_cfb d) h off (wh w) with
      | Err ValueError => Ok (d, VErr ValueError)
      | Err x => Err x
      | Ok (s, h1, p) => Ok (with_h d s e h1, VPos p)
      end end
  | OTrunc e n => match d_hs d e with None => Err KeyError | Some h =>
      do (s, h1) <- stream_truncate (d_cfb d) h n ;; Ok (with_h d s e h1, VUnit) end
  end.

(** an operation the client has no business making is skipped; the library is not called *)
Definition step (d : drv) (o : op) : result (drv * obs) :=
  if dlegal d o then call d o else Ok (d, VIllegal).

Fixpoint run (d : drv) (ops : list op) : result (drv * list obs) :=
  match ops with
  | [] => Ok (d, [])
  | o :: rest => do (d1, v) <- step d o ;; do (d2, vs) <- run d1 rest ;; Ok (d2, v :: vs)
  end.

(** ** The relation between the two levels *)
Definition R (a : astate) (d : drv) : Prop :=
  a_live a = d_live d /\ exists ch hw, Inv (d_cfb d) ch hw /\ DInv (d_cfb d) (d_live d) /\
  (forall e, e <> 0 -> a_data a e = content (d_cfb d) ch e) /\
  (forall e, match d_hs d e with
             | None => a_pos a e = None
             | Some h => In e (d_live d) /\ h_ent h = e /\ HInv (d_cfb d) ch h /\ a_pos a e = Some (h_pos h)
             end).

Lemma R_legal : forall a d o, R a d -> legal a o = dlegal d o.
Proof.
  intros a d o (E & ch & hw & _ & _ & _ & H). destruct o; cbn; auto; unfold live_b; rewrite ?E; auto;
  specialize (H e); destruct (d_hs d e); [destruct H as (_ & _ & _ & ->)|rewrite H| | | | | | ]; auto;
  try (destruct H as (_ & _ & _ & ->); auto); rewrite H; auto.
Qed.

Lemma put_same : forall A (f : Z -> A) e v, put f e v e = v.
Proof. intros. unfold put. rewrite Z.eqb_refl. auto. Qed.
Lemma put_other : forall A (f : Z -> A) e v j, j <> e -> put f e v j = f j.
Proof. intros. unfold put. replace (j =? e) with false by lia. auto. Qed.

Lemma DInv_Chg : forall e s s' live, DInv s live -> Chg e s s' -> e <> 0 -> In e live -> DInv s' live.
Proof.
  intros e s s' live (D1 & D2 & D3 & D4 & D5) C He Hin. unfold DInv. rewrite (c_ss _ _ _ C), (c_dir _ _ _ C), (c_dfree _ _ _ C).
  split; auto. split; auto. split; auto. split; auto. intros i Hi.
  assert (i <> e) by (intros ->; apply Hi; right; auto). assert (i <> 0) by (intros ->; apply Hi; left; auto).
  rewrite (c_ents _ _ _ C); auto.
Qed.

Lemma live_nz : forall s live e, DInv s live -> In e live -> e <> 0.
Proof. intros s live e (_ & _ & D3 & _) H ->. apply NoDup_app_iff in D3. destruct D3 as (_ & D & _). inversion D; auto. Qed.

(** an operation on the live stream [e] that ends with an up to date handle *)
Lemma R_update : forall a d e s' ch hw ch' hw' h c, 
  a_live a = d_live d -> Inv (d_cfb d) ch hw -> DInv (d_cfb d) (d_live d) ->
  (forall e, e <> 0 -> a_data a e = content (d_cfb d) ch e) ->
  (forall e, match d_hs d e with
             | None => a_pos a e = None
             | Some h => In e (d_live d) /\ h_ent h = e /\ HInv (d_cfb d) ch h /\ a_pos a e = Some (h_pos h)
             end) ->
  In e (d_live d) -> Inv s' ch' hw' -> Chg e (d_cfb d) s' -> Keeps e (d_cfb d) ch s' ch' -> content s' ch' e = c ->
  h_ent h = e -> h_chain h = ch' e -> 0 <= h_pos h <= zlen c ->
  R (a_set a e c (h_pos h)) (with_h d s' e h).
Proof.
  intros a d e s' ch hw ch' hw' h c E HI HD Hdata Hh Hin HI' C K N He1 He2 Hp.
  pose proof (live_nz _ _ _ HD Hin) as He.
  split; [exact E|]. exists ch', hw'. cbn [d_cfb d_live d_hs with_h a_data a_pos a_set]. split; auto. split; [eapply DInv_Chg; eauto|]. split.
  - intros j Hj. unfold put. destruct (j =? e) eqn:Ej; [assert (j = e) by lia; subst; auto|].
    rewrite Hdata by auto. symmetry. eapply Keeps_content; eauto. lia.
  - intros j. unfold put. destruct (j =? e) eqn:Ej.
    + assert (j = e) by lia. subst j. split; auto. split; auto. split; auto. split; [congruence|]. split; [congruence|].
      rewrite He1. rewrite <- (zlen_content s' ch' e); [congruence|]. apply (inv_sz _ _ _ HI'); auto.
    + specialize (Hh j). destruct (d_hs d j) as [hj|]; auto. destruct Hh as (H1 & H2 & (H3 & H4 & H5) & H6).
      split; auto. split; auto. split; auto. rewrite H2 in *. destruct (K j) as [K1 K2]; [auto|lia|].
      split; [congruence|]. split; [congruence|]. rewrite H2, (c_ents _ _ _ C) by (auto; lia). auto.
Qed.

Lemma zseq_slice : forall A (g : Z -> A) size p t, 0 <= p -> 0 <= t -> p + t <= size ->
  map g (zseq p t) = ztake t (zdrop p (map g (zseq 0 size))).
Proof.
  intros A g size p t Hp Ht H. apply znth_ext.
  - rewrite zlen_map, zlen_zseq, zlen_ztake, zlen_zdrop, zlen_map, zlen_zseq; lia.
  - rewrite zlen_map, zlen_zseq by lia. intros i Hi. rewrite znth_map, znth_zseq by lia.
    rewrite znth_ztake, znth_zdrop by lia. replace (i <? t) with true by lia. rewrite znth_map, znth_zseq by lia. reflexivity.
Qed.

Theorem step_refines : forall a d o, R a d ->
  step d o = Err Overflow \/ exists d' v a', step d o = Ok (d', v) /\ astep a o v a' /\ R a' d'.
Proof.
  intros a d o HR. unfold step. rewrite <- (R_legal a d o HR). destruct (legal a o) eqn:Hleg.
  2:{ right. exists d, VIllegal, a. split; auto. split; auto. apply A_illegal; auto. }
  pose proof HR as (E & ch & hw & HI & HD & Hdata & Hh). pose proof Hleg as Hleg'.
  destruct o as [|e|e|e|e n|e b|e off w|e n]; cbn in Hleg; cbn [call].
  - destruct (entry_new_ok _ _ _ _ HI HD) as [Ho|(s' & i & E1 & H1 & C1 & N1 & D1 & S1)]; [left; rewrite Ho; reflexivity|].
    right. rewrite E1. cbn [bind]. eexists _, _, _. split; [reflexivity|]. split; [apply A_new; rewrite E; auto|].
    split; [cbn; congruence|]. exists ch, hw. cbn [d_cfb d_live d_hs a_data a_pos]. split; auto. split; auto.
    assert (Hi : i <> 0) by (intros ->; apply N1; left; auto). split.
    + intros j Hj. unfold put. destruct (j =? i) eqn:Ej; [assert (j = i) by lia; subst; rewrite content_nil; auto|].
      rewrite (ChgD_content _ _ _ _ HI C1) by auto. auto.
    + intros j. unfold put. destruct (j =? i) eqn:Ej; auto. specialize (Hh j). destruct (d_hs d j) as [hj|]; auto.
      destruct Hh as (Q1 & Q2 & (Q3 & Q4 & Q5) & Q6). split; [right; auto|]. split; auto. split; auto. split; auto. split; auto.
      rewrite (d_ents _ _ C1); auto.
  - apply live_b_In in Hleg. rewrite E in Hleg. pose proof (live_nz _ _ _ HD Hleg) as He.
    destruct (stream_remove_ok _ _ _ _ _ HI HD Hleg) as (s' & E1 & H1 & O1 & N1 & D1). rewrite E1. cbn [bind].
    right. eexists _, _, _. split; [reflexivity|]. split; [apply A_remove; auto|].
    split; [cbn; congruence|]. exists (zput ch e []), hw. cbn [d_cfb d_live d_hs a_data a_pos]. split; auto. split; auto. split.
    + intros j Hj. unfold put. destruct (j =? e) eqn:Ej; [assert (j = e) by lia; subst; auto|].
      rewrite Hdata by auto. symmetry. apply O1; auto. lia.
    + intros j. unfold put. destruct (j =? e) eqn:Ej; auto. specialize (Hh j). destruct (d_hs d j) as [hj|]; auto.
      destruct Hh as (Q1 & Q2 & (Q3 & Q4 & Q5) & Q6). split; [apply in_in_remove; auto; lia|]. split; auto. split; auto. split; auto.
      rewrite Q2 in *. split; [rewrite zput_other by lia; auto|]. destruct (O1 j) as [_ ->]; auto. lia.
  - apply live_b_In in Hleg. rewrite E in Hleg. pose proof (live_nz _ _ _ HD Hleg) as He.
    rewrite (stream_open_ok _ _ _ _ HI He). cbn [bind]. right. eexists _, _, _. split; [reflexivity|]. split; [apply A_open; auto|].
    change 0 with (h_pos (mkh e 0 (ch e))) at 1. eapply R_update; eauto.
    + apply Chg_refl.
    + apply Keeps_refl.
    + symmetry. auto.
    + cbn. pose proof (zlen_nonneg _ (a_data a e)). lia.
  - apply live_b_In in Hleg. rewrite E in Hleg. pose proof (live_nz _ _ _ HD Hleg) as He.
    destruct (stream_reset_ok _ _ _ _ HI He) as (s' & E1 & H1 & [C1 K1 N1]). rewrite E1. cbn [bind].
    right. eexists _, _, _. split; [reflexivity|]. split; [apply A_reset; auto|].
    change 0 with (h_pos (mkh e 0 [])) at 1. eapply R_update; eauto; cbn; [rewrite zput_same; auto|lia].
  - pose proof (Hh e) as Hhe. destruct (d_hs d e) as [h|] eqn:Eh; [|rewrite Hhe in Hleg; discriminate].
    destruct Hhe as (Hin & H2 & HH & H6). pose proof HH as (He & Hch & Hp). rewrite H2 in *.
    assert (Hsz : 0 <= e_size (ents (d_cfb d) e) <= cap_of (d_cfb d) ch e /\ cap_of (d_cfb d) ch e < e_size (ents (d_cfb d) e) + sec (d_cfb d) (kind (d_cfb d) e)) by (apply (proj2 HI); auto).
    destruct (stream_read_ok (d_cfb d) ch hw h n (proj1 HI)) as (s' & E1 & C1 & HC1); rewrite ?H2; auto; try lia.
    rewrite H2 in E1. set (size := e_size (ents (d_cfb d) e)) in *. set (t := todo_of size (h_pos h) n) in *.
    rewrite E1. cbn [bind]. right.
    assert (Ht : 0 <= t /\ h_pos h + t <= size) by (unfold t, todo_of; destruct (n =? -1); lia).
    assert (Edata : map (sbyte (d_cfb d) ch e) (zseq (h_pos h) t) =
       (if n =? -1 then zdrop (h_pos h) (a_data a e) else ztake (Z.max 0 n) (zdrop (h_pos h) (a_data a e)))).
    { rewrite Hdata by auto. unfold content. fold size. rewrite (zseq_slice _ _ size) by lia.
      assert (Hzl : zlen (zdrop (h_pos h) (map (sbyte (d_cfb d) ch e) (zseq 0 size))) = size - h_pos h) by (rewrite zlen_zdrop, zlen_map, zlen_zseq; lia).
      unfold t, todo_of. destruct (n =? -1).
      - apply ztake_all. lia.
      - unfold ztake. rewrite Hzl. f_equal. lia. }
    eexists _, _, _. split; [reflexivity|]. split; [eapply A_read; eauto|].
    rewrite zlen_map, zlen_zseq by lia. change (h_pos h + t) with (h_pos (h_at h (h_pos h + t))).
    pose proof (CacheOnly_FileOnly _ _ C1) as F1.
    assert (Ee : forall j, ents s' j = ents (d_cfb d) j) by (rewrite C1; auto).
    assert (K1 : Keeps e (d_cfb d) ch s' ch). { eapply Keeps_file; eauto. apply HI. apply CacheOnly_Chg; auto. rewrite C1. reflexivity. }
    assert (Hcon : content s' ch e = a_data a e).
    { rewrite Hdata by auto. unfold content. rewrite Ee. apply map_ext. intros i. rewrite C1. reflexivity. }
    eapply R_update; eauto.
    + eapply Inv_change with (e := e); [exact HI| |apply CacheOnly_Chg; auto|auto|].
      * split; [eapply CacheOnly_Inv0; eauto; apply HI|rewrite C1; apply HI].
      * rewrite Ee. unfold cap_of in *. assert (Ek : kind s' e = kind (d_cfb d) e) by (rewrite C1; reflexivity). rewrite Ek.
        assert (Es : sec s' (kind (d_cfb d) e) = sec (d_cfb d) (kind (d_cfb d) e)) by (rewrite C1; reflexivity). rewrite Es. auto.
    + apply CacheOnly_Chg; auto.
    + cbn. rewrite Hdata, zlen_content by (auto; fold size; lia). fold size. lia.
  - pose proof (Hh e) as Hhe. destruct (d_hs d e) as [h|] eqn:Eh; [|rewrite Hhe in Hleg; discriminate].
    destruct Hhe as (Hin & H2 & HH & H6). pose proof HH as (He & Hch & Hp). rewrite H2 in *.
    destruct (stream_write_ok _ _ _ _ b HI HH) as [Ho|(s' & ch' & hw' & E1 & H1 & [C1 K1 N1])]; [left; rewrite Ho; reflexivity|].
    rewrite H2 in *. rewrite E1. cbn [bind]. right. eexists _, _, _. split; [reflexivity|]. split; [eapply A_write; eauto|].
    change (h_pos h + zlen b) with (h_pos (mkh e (h_pos h + zlen b) (ch' e))). rewrite <- Hdata in N1 by auto.
    assert (Hzl : zlen (a_data a e) = e_size (ents (d_cfb d) e)) by (rewrite Hdata by auto; apply zlen_content; lia).
    eapply R_update; eauto. cbn. rewrite !zlen_app, zlen_ztake, zlen_zdrop by (pose proof (zlen_nonneg _ b); lia).
    pose proof (zlen_nonneg _ b). lia.
  - pose proof (Hh e) as Hhe. destruct (d_hs d e) as [h|] eqn:Eh; [|rewrite Hhe in Hleg; discriminate].
    destruct Hhe as (Hin & H2 & HH & H6). pose proof HH as (He & Hch & Hp). rewrite H2 in *.
    assert (Hzl : zlen (a_data a e) = e_size (ents (d_cfb d) e)) by (rewrite Hdata by auto; apply zlen_content; lia).
    pose proof (stream_seek_ok _ _ _ _ off (wh w) HI HH) as HS. cbv zeta in HS. rewrite H2 in HS.
    set (t := seek_target (e_size (ents (d_cfb d) e)) (h_pos h) off (wh w)) in *.
    assert (Et : t = match w with FromStart => off | FromHere => h_pos h + off | FromEnd => zlen (a_data a e) + off end)
      by (rewrite Hzl; unfold t; destruct w; reflexivity).
    destruct HS as [[Hn E1]|[[Hn E1]|(Hn & s' & ch' & hw' & E1 & H1 & [C1 K1 N1])]]; rewrite E1.
    + right. exists d, (VErr ValueError), a. split; auto. split; [|auto]. eapply A_seek_err; eauto.
    + left. reflexivity.
    + right. eexists _, _, _. split; [reflexivity|]. split; [eapply A_seek; eauto|].
      change t with (h_pos (mkh e t (ch' e))) at 2. rewrite <- Hdata in N1 by auto. rewrite <- Hzl in N1.
      eapply R_update; eauto. cbn. rewrite zlen_app, zlen_zeros_max. lia.
  - pose proof (Hh e) as Hhe. destruct (d_hs d e) as [h|] eqn:Eh; [|rewrite Hhe in Hleg; discriminate].
    destruct Hhe as (Hin & H2 & HH & H6). pose proof HH as (He & Hch & Hp). rewrite H2 in *.
    assert (Hn : 0 <= match n with Some k => k | None => h_pos h end) by (rewrite H6 in Hleg; destruct n; lia).
    destruct (stream_truncate_ok _ _ _ _ n HI HH Hn) as [Ho|(s' & ch' & hw' & E1 & H1 & C1 & K1 & S1 & N1)]; [left; rewrite Ho; reflexivity|].
    rewrite H2 in *. rewrite E1. cbn [bind]. right. set (k := match n with Some k => k | None => h_pos h end) in *.
    assert (Hzl : zlen (a_data a e) = e_size (ents (d_cfb d) e)) by (rewrite Hdata by auto; apply zlen_content; lia).
    assert (Hzl' : zlen (content s' ch' e) = k) by (rewrite zlen_content; lia).
    eexists _, _, _. split; [reflexivity|]. split.
    + eapply A_trunc with (k := k) (c := content s' ch' e); eauto. rewrite Hzl, Hdata by auto. exact N1.
    + change (match n with Some x => x | None => h_pos h end) with k.
      change (Z.min (h_pos h) k) with (h_pos (mkh e (Z.min (h_pos h) k) (ch' e))). eapply R_update; eauto. cbn. lia.
Qed.

Theorem run_refines : forall ops a d, R a d ->
  run d ops = Err Overflow \/ exists d' vs a', run d ops = Ok (d', vs) /\ asteps a ops vs a' /\ R a' d'.
Proof.
  induction ops as [|o ops IH]; intros a d HR; cbn [run].
  - right. exists d, [], a. split; auto. split; auto. constructor.
  - destruct (step_refines a d o HR) as [Ho|(d1 & v & a1 & E1 & S1 & R1)]; [left; rewrite Ho; reflexivity|].
    rewrite E1. cbn [bind]. destruct (IH a1 d1 R1) as [Ho|(d2 & vs & a2 & E2 & S2 & R2)]; [left; rewrite Ho; reflexivity|].
    rewrite E2. cbn [bind]. right. exists d2, (v :: vs), a2. split; auto. split; auto. econstructor; eauto.
Qed.
