(** Every step of a session keeps the file, the directory and the model in agreement. *)
From Verif Require Import Base BaseFacts Codec CodecFacts DirEntryModel LRUModel CfbModel TableInv DifatInv CfbInv CfbBytes CfbStream CfbExtra StreamSpec StreamRun StreamInit
  CfbSave SaveFacts SaveInv CloseFacts Session SessionFacts.
From Coq Require Import ZArith List Bool Lia.
Import ListNotations.
Open Scope Z_scope.

Lemma Ok_inj : forall A (a b : A), Ok a = Ok b -> a = b.
Proof. congruence. Qed.

(** ** What each operation does to the directory *)
Lemma step_chg : forall a d o d' v, R a d -> step d o = Ok (d', v) ->
  match o with ONew | ORemove _ => True
  | _ => d_live d' = d_live d /\ (d_cfb d' = d_cfb d \/ exists e, target o = Some e /\ In e (d_live d) /\ Chg e (d_cfb d) (d_cfb d')) end.
Proof.
  intros a d o d' v HR HS. unfold step in HS. destruct (dlegal d o) eqn:Hl.
  2:{ apply Ok_inj in HS. injection HS as <- <-. destruct o; auto. }
  pose proof HR as (E & ch & hw & HI & HD & Hdata & Hh).
  destruct o as [|e|e|e|e n|e b|e off w|e n]; auto; cbn in Hl; cbn [call] in HS.
  - assert (Hin : In e (d_live d)). { apply existsb_exists in Hl. destruct Hl as (x & Hx & Ex). apply Z.eqb_eq in Ex. subst. auto. }
    rewrite (stream_open_ok _ _ _ _ HI (live_nz _ _ _ HD Hin)) in HS. cbn [bind] in HS. apply Ok_inj in HS. injection HS as <- <-. cbn. auto.
  - assert (Hin : In e (d_live d)). { apply existsb_exists in Hl. destruct Hl as (x & Hx & Ex). apply Z.eqb_eq in Ex. subst. auto. }
    destruct (stream_reset_ok _ _ _ _ HI (live_nz _ _ _ HD Hin)) as (s' & E1 & H1 & [C1 K1 N1]). rewrite E1 in HS. cbn [bind] in HS.
    apply Ok_inj in HS. injection HS as <- <-. cbn. split; auto. right. exists e. auto.
  - pose proof (Hh e) as Hhe. destruct (d_hs d e) as [h|] eqn:Eh; [|discriminate].
    destruct Hhe as (Hin & H2 & HH & H6). pose proof HH as (He & Hch & Hp). rewrite H2 in *.
    assert (Hsz : 0 <= e_size (ents (d_cfb d) e) <= cap_of (d_cfb d) ch e /\ cap_of (d_cfb d) ch e < e_size (ents (d_cfb d) e) + sec (d_cfb d) (kind (d_cfb d) e)) by (apply (proj2 HI); auto).
    destruct (stream_read_ok (d_cfb d) ch hw h n (proj1 HI)) as (s' & E1 & C1 & HC1); rewrite ?H2; auto; try lia.
    rewrite H2 in E1. rewrite E1 in HS. cbn [bind] in HS. apply Ok_inj in HS. injection HS as <- <-. cbn. split; auto. right. exists e. split; auto. split; auto. apply CacheOnly_Chg; auto.
  - pose proof (Hh e) as Hhe. destruct (d_hs d e) as [h|] eqn:Eh; [|discriminate].
    destruct Hhe as (Hin & H2 & HH & H6). pose proof HH as (He & Hch & Hp). rewrite H2 in *.
    destruct (stream_write_ok _ _ _ _ b HI HH) as [Ho|(s' & ch' & hw' & E1 & H1 & [C1 K1 N1])]; [rewrite Ho in HS; discriminate|].
    rewrite H2 in *. rewrite E1 in HS. cbn [bind] in HS. apply Ok_inj in HS. injection HS as <- <-. cbn. split; auto. right. exists e. auto.
  - pose proof (Hh e) as Hhe. destruct (d_hs d e) as [h|] eqn:Eh; [|discriminate].
    destruct Hhe as (Hin & H2 & HH & H6). pose proof HH as (He & Hch & Hp). rewrite H2 in *.
    pose proof (stream_seek_ok _ _ _ _ off (wh w) HI HH) as Hs. cbv zeta in Hs. rewrite H2 in Hs.
    destruct Hs as [[Hn E1]|[[Hn E1]|(Hn & s' & ch' & hw' & E1 & H1 & [C1 K1 N1])]]; rewrite E1 in HS.
    + apply Ok_inj in HS. injection HS as <- <-. auto.
    + discriminate.
    + apply Ok_inj in HS. injection HS as <- <-. cbn. split; auto. right. exists e. auto.
  - pose proof (Hh e) as Hhe. destruct (d_hs d e) as [h|] eqn:Eh; [|discriminate].
    destruct Hhe as (Hin & H2 & HH & H6). pose proof HH as (He & Hch & Hp). rewrite H2 in *.
    assert (Hn : 0 <= match n with Some k => k | None => h_pos h end) by (destruct n; lia).
    destruct (stream_truncate_ok _ _ _ _ n HI HH Hn) as [Ho|(s' & ch' & hw' & E1 & H1 & C1 & K1 & S1 & N1)]; [rewrite Ho in HS; discriminate|].
    rewrite H2 in *. rewrite E1 in HS. cbn [bind] in HS. apply Ok_inj in HS. injection HS as <- <-. cbn. split; auto. right. exists e. auto.
Qed.

Lemma step_Ext : forall d o d' v, Ext (d_cfb d) -> step d o = Ok (d', v) -> Ext (d_cfb d').
Proof.
  intros d o d' v X HS. unfold step in HS. destruct (dlegal d o); [|apply Ok_inj in HS; injection HS as <- <-; auto].
  destruct o as [|e|e|e|e n|e b|e off w|e n]; cbn [call] in HS.
  - bindOk HS. destruct p as [s i]. apply Ok_inj in HS. injection HS as <- <-. eapply entry_new_Ext; eauto.
  - bindOk HS. apply Ok_inj in HS. injection HS as <- <-. eapply stream_remove_Ext; eauto.
  - bindOk HS. apply Ok_inj in HS. injection HS as <- <-. auto.
  - bindOk HS. destruct p as [s i]. apply Ok_inj in HS. injection HS as <- <-. eapply stream_reset_Ext; eauto.
  - destruct (d_hs d e); [|discriminate]. bindOk HS. destruct p as [[s i] b]. apply Ok_inj in HS. injection HS as <- <-. eapply stream_read_Ext; eauto.
  - destruct (d_hs d e); [|discriminate]. bindOk HS. destruct p as [s i]. apply Ok_inj in HS. injection HS as <- <-. eapply stream_write_Ext; eauto.
  - destruct (d_hs d e) as [h|]; [|discriminate]. destruct (stream_seek (d_cfb d) h off (wh w)) as [[[s i] p]|x] eqn:Es.
    + apply Ok_inj in HS. injection HS as <- <-. eapply stream_seek_Ext; eauto.
    + destruct x; try discriminate. apply Ok_inj in HS. injection HS as <- <-. auto.
  - destruct (d_hs d e); [|discriminate]. bindOk HS. destruct p as [s i]. apply Ok_inj in HS. injection HS as <- <-. eapply stream_truncate_Ext; eauto.
Qed.

Lemma dir_new : forall s ch hw live s' i, Inv s ch hw -> DInv s live -> entry_new s = Ok (s', i) ->
  e_size (ents s' 0) = e_size (ents s 0) /\
  exists ext, dir_chain s' = dir_chain s ++ ext /\
    (forall k, In k (dir_free s) -> k = i \/ In k (dir_free s')) /\
    (forall k, in_dir (ss s) (dir_chain s') k -> in_dir (ss s) (dir_chain s) k \/ k = i \/ In k (dir_free s')).
Proof.
  intros s ch hw live s' i HI HD HE. destruct (entry_new_ok _ _ _ _ HI HD) as [Ho|(s'' & i' & E1 & _ & _ & N1 & _ & _)]; [congruence|].
  assert (s'' = s' /\ i' = i) as [-> ->] by (rewrite E1 in HE; apply Ok_inj in HE; injection HE as -> ->; auto). clear HE.
  assert (Hi : i <> 0) by (intros ->; apply N1; left; auto).
  unfold entry_new in E1. destruct (next_free_dir_id s) as [[s1 j]|] eqn:E2; [|discriminate]. cbn [bind] in E1. apply Ok_inj in E1. injection E1 as <- ->.
  cbn [ents dir_chain dir_free CfbModel.set_size set_sid set_ents].
  unfold next_free_dir_id in E2. cbn [next_free_dir_id_f] in E2. destruct (dir_free s) as [|i0 rest] eqn:Ef.
  - destruct (dir_chain s) as [|c0 cs] eqn:Ec; [discriminate|]. rewrite <- Ec in *.
    destruct (append_dir s ch hw (proj1 (proj1 HI))) as [Ho|(s2 & x & E3 & F & M1 & H1)]; [rewrite Ho in E2; discriminate|].
    rewrite E3 in E2. cbn [bind] in E2. rewrite (f_dfree _ _ F), Ef, (f_dir _ _ F), (f_ss _ _ F) in E2. cbn [app dir_free set_dir] in E2.
    destruct HD as (D1 & D2 & _).
    set (per := ss s / 128) in *. assert (Hper : 1 <= per) by (unfold per; apply Z.div_le_lower_bound; lia).
    assert (E128 : ss s = per * 128) by (unfold per; pose proof (Z.div_mod (ss s) 128 ltac:(lia)); lia).
    assert (Hfirst : (zlen (dir_chain s ++ [x]) - 1) * ss s / 128 = zlen (dir_chain s) * per).
    { rewrite E128, zlen_app. change (zlen [x]) with 1. replace ((zlen (dir_chain s) + 1 - 1) * (per * 128)) with (zlen (dir_chain s) * per * 128) by lia. apply Z.div_mul. lia. }
    rewrite Hfirst in E2. rewrite zseq_cons in E2 by lia. cbn [dir_chain dir_cnt set_dir] in E2. apply Ok_inj in E2. injection E2 as <- <-.
    split.
    + replace (0 =? zlen (dir_chain s) * per) with false by (symmetry; apply Z.eqb_neq; congruence). apply (f_root _ _ F).
    + cbn. exists [x]. split; auto. split; [intros k []|]. intros k Hk. unfold in_dir in *. fold per in Hk |- *. rewrite zlen_app in Hk. change (zlen [x]) with 1 in Hk.
      destruct (Z.lt_ge_cases k (zlen (dir_chain s) * per)); [left; lia|]. right.
      destruct (Z.eq_dec k (zlen (dir_chain s) * per)); [left; auto|]. right. apply In_zseq. lia.
  - apply Ok_inj in E2. injection E2 as <- <-. split; [replace (0 =? i0) with false by (symmetry; apply Z.eqb_neq; congruence); auto|]. exists []. rewrite app_nil_r. cbn.
    split; auto. split; [intros k [->|Hk]; auto|]. intros k Hk. auto.
Qed.

(** ** Keeping J *)
Lemma ent_eqb_eq : forall a b, ent_eqb a b = true -> a = b.
Proof.
  intros [a n] [b m] H. unfold ent_eqb in H. cbn in H. apply andb_true_iff in H. destruct H as [H1 H2].
  assert (a = b) by (destruct a, b; try discriminate; auto; f_equal; lia). f_equal; auto. lia.
Qed.

Lemma mark_same : forall c s' ids i, (forall j, ~ In j ids -> ents s' j = ents (c_s c) j) -> ~ In i (touched (c_s c) s' ids) -> ents s' i = ents (c_s c) i.
Proof.
  intros c s' ids i H Hi. destruct (in_dec Z.eq_dec i ids) as [D|D]; auto. symmetry. apply ent_eqb_eq.
  destruct (ent_eqb (ents (c_s c) i) (ents s' i)) eqn:E; auto. exfalso. apply Hi. apply filter_In. split; auto. rewrite E. reflexivity.
Qed.

Lemma slot_DirSame : forall s s' i, 128 <= ss s -> ss s mod 128 = 0 -> DirSame s s' -> in_dir (ss s) (dir_chain s) i ->
  slot (file s') (ss s) (dir_chain s) i = slot (file s) (ss s) (dir_chain s) i.
Proof.
  intros s s' i H1 H2 D Hi. apply slot_ext. intros k Hk. destruct (spos_sector _ _ _ _ H1 H2 Hi Hk) as (x & r & Hx & Hr & ->). apply D; auto.
Qed.

Lemma J_mark : forall c live s' ids, J c live -> DInv (c_s c) live -> ss s' = ss (c_s c) -> dir_chain s' = dir_chain (c_s c) -> dir_free s' = dir_free (c_s c) ->
  DirSame (c_s c) s' -> (forall j, ~ In j ids -> ents s' j = ents (c_s c) j) -> (forall j, In j ids -> In j (0 :: live)) -> e_size (ents s' 0) = e_size (ents (c_s c) 0) ->
  J (mark c s' ids) live.
Proof.
  intros c live s' ids [J1 J2 J3 J4 J5] (D1 & D2 & D3 & D4 & D5) Es Ed Ef DS He Hids Hr. constructor; cbn [mark c_s c_mod c_rest with_mod with_s].
  - intros i Hi Hm. rewrite in_app_iff in Hm. rewrite Es, Ed. rewrite slot_DirSame by (auto; apply D4; apply in_or_app; auto).
    rewrite J1 by auto. unfold img_of. cbn [mark c_s c_rest with_mod with_s]. f_equal. symmetry. eapply mark_same; eauto.
  - intros i Hi Hn Hf. rewrite Es, Ed, Ef in *. rewrite slot_DirSame by auto. auto.
  - intros i Hi. apply in_app_iff in Hi. destruct Hi as [Hi|Hi]; auto. apply filter_In in Hi. apply Hids. tauto.
  - auto.
  - rewrite Hr. auto.
Qed.

Lemma J_remove : forall c live e s' m, J c live -> DInv (c_s c) live -> ss s' = ss (c_s c) -> dir_chain s' = dir_chain (c_s c) -> dir_free s' = dir_free (c_s c) ++ [e] ->
  DirSame (c_s c) s' -> (forall j, j <> 0 -> j <> e -> ents s' j = ents (c_s c) j) -> In e live -> e_size (ents s' 0) = e_size (ents (c_s c) 0) ->
  m = remove Z.eq_dec e (touched (c_s c) s' [0] ++ c_mod c) ->
  J (with_mod (with_s c s') m) (remove Z.eq_dec e live).
Proof.
  intros c live e s' m [J1 J2 J3 J4 J5] HD Es Ed Ef DS He Hin Hr ->. pose proof HD as (D1 & D2 & D3 & D4 & D5).
  pose proof (live_nz _ _ _ HD Hin) as Ne.
  assert (Hl : forall i, In i (0 :: remove Z.eq_dec e live) -> In i (0 :: live) /\ i <> e).
  { intros i [<-|Hi]; [split; [left; auto|auto]|]. apply in_remove in Hi. split; [right; tauto|tauto]. }
  constructor; cbn [c_s c_mod c_rest with_mod with_s].
  - intros i Hi Hm. destruct (Hl i Hi) as [Hi' Ni]. assert (Hm' : ~ In i (touched (c_s c) s' [0] ++ c_mod c)) by (intros Q; apply Hm; apply in_in_remove; auto).
    rewrite in_app_iff in Hm'. rewrite Es, Ed. rewrite slot_DirSame by (auto; apply D4; apply in_or_app; auto).
    rewrite J1 by auto. unfold img_of. cbn [c_s c_rest with_mod with_s]. f_equal. symmetry. destruct (Z.eq_dec i 0) as [->|N0]; [|apply He; auto].
    symmetry. apply ent_eqb_eq. destruct (ent_eqb (ents (c_s c) 0) (ents s' 0)) eqn:E; auto. exfalso. apply Hm'. left. apply filter_In. split; [left; auto|]. rewrite E. reflexivity.
  - intros i Hi Hn Hf. rewrite Es, Ed, Ef in *. rewrite in_app_iff in Hf. rewrite slot_DirSame by auto. apply J2; auto.
    intros [Q|Q]; apply Hn; [left; auto|right]. apply in_in_remove; auto. intros ->. apply Hf. right. left. auto.
  - intros i Hi. apply in_remove in Hi. destruct Hi as [Hi Ni]. apply in_app_iff in Hi. assert (Q : In i (0 :: live)).
    { destruct Hi as [Hi|Hi]; auto. apply filter_In in Hi. left. destruct Hi as [[<-|[]] _]. auto. }
    destruct Q as [Q|Q]; [left; auto|right; apply in_in_remove; auto].
  - intros i Hi. apply J4. apply Hl. auto.
  - rewrite Hr. auto.
Qed.

Lemma J_new : forall c live ch hw s' i r, J c live -> Inv (c_s c) ch hw -> DInv (c_s c) live -> entry_new (c_s c) = Ok (s', i) -> rest_okP r ->
  J (set_rest (mark c s' [0]) i r) (i :: live).
Proof.
  intros c live ch hw s' i r [J1 J2 J3 J4 J5] HI HD HE Hr. pose proof HD as (D1 & D2 & D3 & D4 & D5).
  destruct (entry_new_ok _ _ _ _ HI HD) as [Ho|(s'' & i' & E1 & _ & C1 & N1 & _ & _)]; [congruence|].
  assert (s'' = s' /\ i' = i) as [-> ->] by (rewrite E1 in HE; apply Ok_inj in HE; injection HE as -> ->; auto).
  destruct (dir_new _ _ _ _ _ _ HI HD HE) as (Er & ext & Ed & F1 & F2).
  assert (Hl : forall k, In k (0 :: i :: live) -> k <> i -> In k (0 :: live)) by (intros k [<-|[<-|Hk]] Nk; [left; auto|congruence|right; auto]).
  constructor; cbn [set_rest mark c_s c_mod c_rest with_mod with_s]; rewrite ?(d_ss _ _ C1), ?Ed, ?(d_file _ _ C1), ?Er; auto.
  - intros k Hk Hm. assert (Nk : k <> i) by (intros ->; apply Hm; left; auto). pose proof (Hl k Hk Nk) as Hk'.
    assert (Hd : in_dir (ss (c_s c)) (dir_chain (c_s c)) k) by (apply D4; apply in_or_app; auto).
    rewrite slot_ext with (dc := dir_chain (c_s c)) (f := file (c_s c)) by (intros; rewrite spos_app; auto).
    rewrite J1 by (auto; intros Q; apply Hm; right; apply in_or_app; auto). unfold img_of. cbn [set_rest mark c_s c_mod c_rest with_mod with_s].
    rewrite put_other by auto. f_equal. symmetry. eapply mark_same with (ids := [0]); [|intros Q; apply Hm; right; apply in_or_app; left; exact Q].
    intros j Hj. apply (d_ents _ _ C1). intros ->. apply Hj. left. auto.
  - intros k Hk Hn Hf. rewrite <- Ed in Hk. destruct (F2 k Hk) as [Hd|[-> |Q]]; [|exfalso; apply Hn; right; left; auto|contradiction].
    rewrite slot_ext with (dc := dir_chain (c_s c)) (f := file (c_s c)) by (intros; rewrite spos_app; auto). apply J2; auto.
    + intros [Q|Q]; apply Hn; [left|right; right]; auto.
    + intros Q. destruct (F1 k Q) as [-> |Q']; [apply Hn; right; left; auto|contradiction].
  - intros k [<-|Hk]; [right; left; auto|]. apply in_app_iff in Hk. destruct Hk as [Hk|Hk].
    + apply filter_In in Hk. destruct Hk as [[<-|[]] _]. left. auto.
    + destruct (J3 k Hk) as [Q|Q]; [left|right; right]; auto.
  - intros k Hk. unfold put. destruct (k =? i) eqn:E; auto. apply J4. apply Hl; auto. lia.
Qed.

(** ** Writing the modified entries *)
Lemma flush_ok : forall c live ch hw, Inv (c_s c) ch hw -> DInv (c_s c) live -> J c live ->
  exists c', flush c = Ok c' /\ c' = with_mod (with_s c (c_s c')) [] /\ FileOnly (c_s c) (c_s c') /\ cache_ok (c_s c') /\ J c' live /\
    same_out (ss (c_s c)) (fun x => In x (dir_chain (c_s c))) (file (c_s c)) (file (c_s c')).
Proof.
  intros c live ch hw HI HD [J1 J2 J3 J4 J5]. pose proof HD as (D1 & D2 & D3 & D4 & D5). pose proof (proj1 (proj1 HI)) as H.
  assert (ND : NoDup (dir_chain (c_s c))) by apply (ti_nodup _ _ _ (i_ft _ _ _ _ _ H) ODir).
  assert (Hx : forall x, In x (dir_chain (c_s c)) -> 0 <= x) by (intros x Hx; apply (TInv_range _ _ _ (i_ft _ _ _ _ _ H) ODir) in Hx; lia).
  assert (Hd : forall i, In i (0 :: live) -> in_dir (ss (c_s c)) (dir_chain (c_s c)) i) by (intros i Hi; apply D4; apply in_or_app; auto).
  unfold flush. destruct (write_slots_ok (sort_ids (c_mod c)) (c_s c) (img_of c) D1 D2 ND Hx) as (s' & E & F & C & L & S1 & O & B).
  { intros i Hi. apply (proj1 (In_sort _ _)) in Hi. apply J3 in Hi. split; auto. apply zlen_image. apply J4. auto. }
  rewrite E. cbn [bind]. eexists. split; [reflexivity|]. split; [reflexivity|]. cbn [c_s with_mod with_s]. split; auto. split; [apply C; apply (i_cache _ _ _ _ _ H)|].
  split; auto. destruct (FileOnly_fields _ _ F) as [Ess Edc].
  assert (Een : ents s' = ents (c_s c)) by (rewrite F; reflexivity). assert (Edf : dir_free s' = dir_free (c_s c)) by (rewrite F; reflexivity).
  constructor; cbn [c_s c_mod c_rest with_mod with_s]; rewrite ?Ess, ?Edc, ?Een, ?Edf; auto.
  - intros i Hi _. replace (img_of (with_mod (with_s c s') []) i) with (img_of c i) by (unfold img_of; cbn [c_s c_rest with_mod with_s]; rewrite Een; reflexivity).
    destruct (in_dec Z.eq_dec i (c_mod c)) as [Hm|Hm]; [apply S1; apply In_sort; auto|]. rewrite O by (auto; rewrite In_sort; auto). auto.
  - intros i Hi Hn Hf. rewrite O; auto. rewrite In_sort. intros Q. apply Hn. auto.
  - intros i [].
Qed.

(** a file that differs only in the directory *)
Lemma R_dir : forall a s hs live s', R a (mkd s hs live) -> FileOnly s s' -> cache_ok s' -> same_out (ss s) (fun x => In x (dir_chain s)) (file s) (file s') -> R a (mkd s' hs live).
Proof.
  intros a s hs live s' (E & ch & hw & HI & HD & Hdata & Hh) F HC SO. cbn [d_cfb d_live d_hs] in *. split; auto. exists ch, hw. cbn [d_cfb d_live d_hs].
  assert (Een : ents s' = ents s) by (rewrite F; reflexivity).
  split; [|split; [|split]].
  - destruct HI as [[H Hc] HS]. split; [split; [eapply FileOnly_Inv0; eauto|rewrite F; exact Hc]|]. rewrite F. exact HS.
  - rewrite F. exact HD.
  - intros e He. rewrite Hdata by auto. unfold content. rewrite Een. apply map_ext_in. intros i Hi. apply In_zseq in Hi.
    assert (V : valid s ch e i) by (split; auto; pose proof (inv_sz _ _ _ HI e He) as Q; unfold cap_of in Q; lia).
    destruct (saddr_sector _ _ _ _ _ (proj1 HI) V) as (x & r & o & Ea & Hr & Hx & Ho). unfold sbyte.
    replace (saddr s' (ch e) (kind s' e) i) with (saddr s (ch e) (kind s e) i) by (rewrite F; reflexivity). rewrite Ea. symmetry. apply SO; auto.
    + intros Q. pose proof (ti_disj _ _ _ (i_ft _ _ _ _ _ (proj1 (proj1 HI))) o ODir x Hx Q). destruct Ho; subst; discriminate.
    + apply (TInv_range _ _ _ (i_ft _ _ _ _ _ (proj1 (proj1 HI)))) in Hx. lia.
  - intros e. specialize (Hh e). destruct (hs e) as [h|]; auto. destruct Hh as (Q1 & Q2 & (Q3 & Q4 & Q5) & Q6). split; auto. split; auto. split; auto. split; auto. split; auto. rewrite Een. auto.
Qed.

(** ** The relation *)
Definition SR (p : sspec) (q : sess) : Prop :=
  R (p_a p) (drv_of q) /\ Ext (c_s (q_f q)) /\ HdrOk (q_f q) /\ J (q_f q) (q_live q) /\
  (forall i, In i (0 :: q_live q) -> p_rest p i = c_rest (q_f q) i).

Lemma HdrOk_same : forall c c', HdrOk c -> c_class c' = c_class c -> c_minor c' = c_minor c -> c_major c' = c_major c -> c_dstart c' = c_dstart c -> c_sig c' = c_sig c ->
  hd_error (dir_chain (c_s c')) = hd_error (dir_chain (c_s c)) -> HdrOk c'.
Proof. intros c c' [] E1 E2 E3 E4 E5 E6. constructor; rewrite ?E1, ?E2, ?E3, ?E4, ?E5, ?E6; auto. Qed.

Lemma SR_legal : forall p q o, SR p q -> plegal p o = slegal q o.
Proof. intros p q o ((E & _) & _). cbn in E. destruct o as [r|[]|i r|i| |cap]; cbn; rewrite ?E; auto. Qed.

Theorem sstep_refines : forall p q o, SR p q ->
  sstep q o = Err Overflow \/ exists q' v p', sstep q o = Ok (q', v) /\ pstep p o v p' /\ SR p' q'.
Proof.
  intros p q o HR. pose proof (SR_legal p q o HR) as Hleg. unfold sstep. destruct (slegal q o) eqn:Hl.
  2:{ right. exists q, SIllegal, p. split; auto. split; auto. apply P_illegal; auto. }
  pose proof HR as (HR1 & X & HO & HJ & HP). pose proof HR1 as (Elive & ch & hw & HI & HD & Hdata & Hh).
  cbn [drv_of d_cfb d_live d_hs] in HI, HD, Hdata, Hh, Elive.
  destruct o as [r|o|i r|i| |cap]; cbn [scall].
  - (* new *)
    destruct (step_refines _ _ ONew HR1) as [Ho|(d' & v & a' & E1 & S1 & R1)].
    { left. unfold step in Ho. cbn [dlegal] in Ho. rewrite Ho. reflexivity. }
    assert (E1' : call (drv_of q) ONew = Ok (d', v)) by exact E1. rewrite E1'. cbn [bind].
    cbn [call drv_of d_cfb d_hs d_live] in E1'. destruct (entry_new (c_s (q_f q))) as [[s' i]|] eqn:EN; [|discriminate]. cbn [bind] in E1'. apply Ok_inj in E1'.
    injection E1' as <- <-. right. eexists _, _, _. split; [reflexivity|]. cbn in Hl. apply rest_ok_P in Hl as Hr.
    split; [apply P_new; eauto|]. destruct (dir_new _ _ _ _ _ _ HI HD EN) as (Er & ext & Ed & _).
    split; [exact R1|]. split; [eapply entry_new_Ext; eauto|]. split; [|split].
    + eapply HdrOk_same; [exact HO|reflexivity..|]. cbn. rewrite Ed. pose proof (i_dir _ _ _ _ _ (proj1 (proj1 HI))) as Hne. destruct (dir_chain (c_s (q_f q))); [congruence|reflexivity].
    + cbn [q_f q_live d_live]. eapply J_new; eauto.
    + cbn [q_f q_live d_live c_rest set_rest mark with_mod with_s p_rest]. intros k Hk. unfold put. destruct (k =? i) eqn:Ek; auto. apply HP.
      destruct Hk as [<-|[<-|Hk]]; [left; auto|lia|right; auto].
  - (* a stream operation *)
    destruct (step_refines _ _ o HR1) as [Ho|(d' & v & a' & E1 & S1 & R1)]; [left; rewrite Ho; reflexivity|].
    rewrite E1. cbn [bind]. right. pose proof (step_Ext (drv_of q) _ _ _ X E1) as X1. pose proof (step_chg _ _ _ _ _ HR1 E1) as HC.
    assert (Hon : o <> ONew) by (intros ->; discriminate).
    assert (G : forall ids, d_live d' = q_live q -> (forall j, In j ids -> In j (0 :: q_live q)) -> (forall j, ~ In j ids -> ents (d_cfb d') j = ents (c_s (q_f q)) j) ->
      (d_cfb d' = c_s (q_f q) \/ exists e, In e (q_live q) /\ Chg e (c_s (q_f q)) (d_cfb d')) ->
      SR (mksp a' (p_rest p)) (mks (mark (q_f q) (d_cfb d') ids) (d_hs d') (d_live d'))).
    { intros ids El Hids Hen HC'. assert (HC2 : ss (d_cfb d') = ss (c_s (q_f q)) /\ dir_chain (d_cfb d') = dir_chain (c_s (q_f q)) /\ dir_free (d_cfb d') = dir_free (c_s (q_f q)) /\
        DirSame (c_s (q_f q)) (d_cfb d') /\ e_size (ents (d_cfb d') 0) = e_size (ents (c_s (q_f q)) 0)).
      { destruct HC' as [-> |(e & _ & [])]; [|tauto]. split; auto. split; auto. split; auto. split; auto. apply DirSame_file; auto. }
      destruct HC2 as (A1 & A2 & A3 & A4 & A5).
      split; [destruct d'; exact R1|]. split; [exact X1|]. split; [|split].
      - eapply HdrOk_same; [exact HO|reflexivity..|]. cbn. rewrite A2. auto.
      - cbn [q_f q_live]. rewrite El. apply J_mark; auto.
      - cbn [q_f q_live p_rest c_rest mark with_mod with_s]. rewrite El. auto. }
    assert (G2 : match o with ONew | ORemove _ => True | _ => SR (mksp a' (p_rest p)) (mks (mark (q_f q) (d_cfb d') (match target o with Some e => [0; e] | None => [0] end)) (d_hs d') (d_live d')) end).
    { destruct o as [|e|e|e|e n|e b|e off w|e n]; auto; destruct HC as [El HC]; cbn [target].
      all: assert (Q : exists ids, ids = [0; e] /\ SR (mksp a' (p_rest p)) (mks (mark (q_f q) (d_cfb d') ids) (d_hs d') (d_live d'))); [|destruct Q as (ids & -> & Q); exact Q].
      all: destruct HC as [HC|(e0 & Et & Hin & HC)]; [|cbn in Et; injection Et as <-].
      all: try (exists [0; e]; split; [reflexivity|]; apply G; [exact El| | |right; exists e; split; auto];
                [intros j [<-|[<-|[]]]; [left; auto|right; auto]|intros j Hj; apply (c_ents _ _ _ HC); intros ->; apply Hj; [left|right; left]; auto]).
      all: exists [0; e]; split; [reflexivity|]; assert (Q : mark (q_f q) (d_cfb d') [0; e] = mark (q_f q) (d_cfb d') []);
           [unfold mark; rewrite HC; f_equal; f_equal; unfold touched; cbn [filter drv_of d_cfb];
            replace (ent_eqb (ents (c_s (q_f q)) 0) (ents (c_s (q_f q)) 0)) with true by (symmetry; unfold ent_eqb; destruct (e_sid (ents (c_s (q_f q)) 0)); rewrite ?Z.eqb_refl; auto);
            replace (ent_eqb (ents (c_s (q_f q)) e) (ents (c_s (q_f q)) e)) with true by (symmetry; unfold ent_eqb; destruct (e_sid (ents (c_s (q_f q)) e)); rewrite ?Z.eqb_refl; auto); reflexivity
           |rewrite Q; apply G; [exact El|intros j []|intros j _; rewrite HC; reflexivity|left; exact HC]]. }
    destruct o as [|e|e|e|e n|e b|e off w|e n]; [congruence| |eexists _, _, _; split; [reflexivity|]; split; [apply P_stream; eauto|exact G2]..].
    destruct (dlegal (drv_of q) (ORemove e)) eqn:Hd.
    2:{ unfold step in E1. rewrite Hd in E1. apply Ok_inj in E1. injection E1 as <- <-.
        eexists _, _, _. split; [reflexivity|]. split; [apply P_stream; eauto|]. 
        assert (Q : forall c m, with_mod c m = with_mod c m) by auto. 
        match goal with |- SR _ (mks (with_mod ?c (c_mod ?c)) _ _) => replace (with_mod c (c_mod c)) with c by reflexivity end.
        apply G; auto; [intros j [<-|[]]; left; auto]. }
    eexists _, _, _. split; [reflexivity|]. split; [apply P_stream; eauto|].
    cbn in Hd. assert (Hin : In e (q_live q)). { apply existsb_exists in Hd. destruct Hd as (x & Hx & Ex). apply Z.eqb_eq in Ex. subst. auto. }
    pose proof (live_nz _ _ _ HD Hin) as He.
    unfold step in E1. cbn [dlegal drv_of d_live] in E1. rewrite Hd in E1. cbn [call drv_of d_cfb d_hs d_live] in E1. unfold stream_remove in E1. fold (kind (c_s (q_f q)) e) in E1.
    destruct (drop_ok _ _ _ _ HI He) as (s1 & Es & H1 & [C1 K1 T1] & S2 & SD1). rewrite Es in E1. cbn [bind] in E1. apply Ok_inj in E1. injection E1 as <- <-.
    set (s2 := CfbModel.set_size (set_sid s1 e None) e 0) in *.
    split; [exact R1|]. split; [exact X1|]. split; [|split].
    + eapply HdrOk_same; [exact HO|reflexivity..|]. cbn [q_f c_s mark with_mod with_s d_cfb set_dir dir_chain]. rewrite (c_dir _ _ _ C1 : dir_chain s1 = _). auto.
    + cbn [q_f q_live d_live d_cfb]. unfold mark. cbn [c_mod with_mod with_s].
      match goal with |- J ?cc _ => change cc with (with_mod (with_s (q_f q) (set_dir s2 (dir_chain s2) (dir_cnt s2) (dir_free s2 ++ [e])))
        (remove Z.eq_dec e (touched (c_s (q_f q)) (set_dir s2 (dir_chain s2) (dir_cnt s2) (dir_free s2 ++ [e])) [0] ++ c_mod (q_f q)))) end.
      eapply J_remove; auto; cbn [set_dir ss dir_chain dir_free ents file].
      * apply (c_ss _ _ _ C1).
      * apply (c_dir _ _ _ C1).
      * rewrite (c_dfree _ _ _ C1). auto.
      * apply (c_dirb _ _ _ C1).
      * apply (c_ents _ _ _ C1).
      * apply (c_root _ _ _ C1).
    + cbn [q_f q_live d_live p_rest c_rest mark with_mod with_s]. intros k Hk. apply HP. destruct Hk as [<-|Hk]; [left; auto|right]. apply in_remove in Hk. tauto.
  - (* set *)
    right. eexists _, _, _. split; [reflexivity|]. split; [apply P_set; congruence|]. cbn in Hl. apply andb_true_iff in Hl. destruct Hl as [Hin Hr]. apply rest_ok_P in Hr.
    assert (Hi : In i (0 :: q_live q)). { cbn in Hin. apply orb_true_iff in Hin. destruct Hin as [Q|Q]; [left; lia|right]. apply existsb_exists in Q. destruct Q as (x & Hx & Ex). apply Z.eqb_eq in Ex. subst. auto. }
    split; [exact HR1|]. split; [exact X|]. split; [|split].
    + eapply HdrOk_same; [exact HO|reflexivity..].
    + destruct HJ as [J1 J2 J3 J4 J5]. cbn [q_f q_live]. constructor; cbn [set_rest c_s c_mod c_rest]; auto.
      * intros k Hk Hm. rewrite J1 by (auto; intro; apply Hm; right; auto). unfold img_of. cbn [set_rest c_s c_rest]. rewrite put_other; auto. intros ->. apply Hm. left. auto.
      * intros k [<-|Hk]; auto.
      * intros k Hk. unfold put. destruct (k =? i); auto.
    + cbn. intros k Hk. unfold put. destruct (k =? i); auto.
  - (* get *)
    right. eexists _, _, _. split; [reflexivity|]. assert (Hi : In i (0 :: q_live q)).
    { cbn in Hl. apply orb_true_iff in Hl. destruct Hl as [Q|Q]; [left; lia|right]. apply existsb_exists in Q. destruct Q as (x & Hx & Ex). apply Z.eqb_eq in Ex. subst. auto. }
    rewrite <- (HP i Hi). split; [apply P_get; congruence|auto].
  - (* flush *)
    destruct (flush_ok _ _ _ _ HI HD HJ) as (c' & E & Ec & F & HC & HJ' & SO). right. rewrite E. cbn [bind]. eexists _, _, _. split; [reflexivity|]. split; [apply P_flush|].
    split; [|split; [|split; [|split]]]; cbn [q_f q_live].
    + unfold drv_of in *. cbn [q_f q_hs q_live]. eapply R_dir; eauto.
    + rewrite F. destruct X. constructor; auto.
    + eapply HdrOk_same; [exact HO|rewrite Ec; reflexivity..|]. rewrite F. reflexivity.
    + auto.
    + intros k Hk. rewrite Ec. cbn. auto.
  - (* close and open *)
    destruct (close_reopen _ _ _ _ cap HI HD X HO HJ) as (f & c' & s1 & m & n & E1 & E2 & SV & HI' & HD' & X' & HO' & HJ' & Hc & Hr).
    right. rewrite E1. cbn [bind]. rewrite E2. cbn [bind]. eexists _, _, _. split; [reflexivity|]. split; [apply P_reopen|].
    split; [|split; [|split; [|split]]]; cbn [q_f q_live]; auto.
    + split; [exact Elive|]. exists ch, n. cbn [drv_of d_cfb d_live d_hs q_f q_hs q_live]. split; auto. split; auto. split; [|reflexivity].
      intros e He. cbn [a_data p_a]. rewrite Hc by auto. auto.
    + cbn [p_rest]. intros i Hi. rewrite Hr by auto. auto.
Qed.

Theorem srun_refines : forall ops p q, SR p q ->
  srun q ops = Err Overflow \/ exists q' vs p', srun q ops = Ok (q', vs) /\ psteps p ops vs p' /\ SR p' q'.
Proof.
  induction ops as [|o ops IH]; intros p q HR; cbn [srun].
  - right. exists q, [], p. split; auto. split; auto. constructor.
  - destruct (sstep_refines p q o HR) as [Ho|(q1 & v & p1 & E1 & S1 & R1)]; [left; rewrite Ho; reflexivity|].
    rewrite E1. cbn [bind]. destruct (IH p1 q1 R1) as [Ho|(q2 & vs & p2 & E2 & S2 & R2)]; [left; rewrite Ho; reflexivity|].
    rewrite E2. cbn [bind]. right. exists q2, (v :: vs), p2. split; auto. split; auto. econstructor; eauto.
Qed.
