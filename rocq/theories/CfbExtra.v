(** Facts about the state that saving needs (cfb.py:1144-1183, 1241-1270, 1384-1413, 1507-1519) and
    that every operation preserves, whatever else holds: sizes of the tables and ranges of what they hold. *)
From Verif Require Import Base BaseFacts LRUModel CfbModel DifatInv.
From Coq Require Import ZArith List Bool Lia.
Import ListNotations.
Open Scope Z_scope.

Definition u32 (v : Z) : Prop := 0 <= v < 4294967296.

Record Ext (s : cfb) : Prop := {
  x_ss : ss s = 512 \/ ss s = 4096;
  x_mss : mss s = 64;
  x_mmax : u32 (mmax s);
  x_mlen : zlen (minifat s) = zlen (minifat_chain s) * (ss s / 4);
  x_difat : Forall (Forall u32) (difat s);
  x_dstart : u32 (difat_start s);
  x_mstart : minifat_chain s = [] -> minifat_start s = FREESECT;
  x_dcnt : dir_cnt s = zlen (dir_chain s);
  x_cont : mini_chain s = [] \/ minifat s <> [] }.

(** nothing of the above changes *)
Record Keep (s s' : cfb) : Prop := {
  k_ss : ss s' = ss s; k_mss : mss s' = mss s; k_mmax : mmax s' = mmax s;
  k_mlen : zlen (minifat s') = zlen (minifat s); k_mchain : minifat_chain s' = minifat_chain s;
  k_mstart : minifat_start s' = minifat_start s; k_difat : difat s' = difat s; k_dstart : difat_start s' = difat_start s;
  k_dcnt : dir_cnt s' = dir_cnt s; k_dir : dir_chain s' = dir_chain s; k_cont : mini_chain s' = mini_chain s }.

Lemma Keep_Ext : forall s s', Keep s s' -> Ext s -> Ext s'.
Proof.
  intros s s' [] []. constructor; rewrite ?k_ss0, ?k_mss0, ?k_mmax0, ?k_mlen0, ?k_mchain0, ?k_mstart0, ?k_difat0, ?k_dstart0, ?k_dcnt0, ?k_dir0, ?k_cont0; auto.
  destruct x_cont0 as [?|N]; auto. right. intros E. apply N. rewrite E in k_mlen0. change (zlen (@nil Z)) with 0 in k_mlen0.
  destruct (minifat s); auto. rewrite zlen_cons in k_mlen0. pose proof (zlen_nonneg _ l). lia.
Qed.

Ltac keep := solve [constructor; cbn; rewrite ?zlen_zupd; auto].
Ltac inv H := inversion H; subst; clear H.
Ltac bindOk H := match type of H with
  | bind ?r _ = Ok _ => let E := fresh "E" in let p := fresh "p" in destruct r as [p|] eqn:E; cbn [bind] in H; [|discriminate H]
  | (if ?b then _ else Err _) = Ok _ => let E := fresh "E" in destruct b eqn:E; [|discriminate H]
  end.

Lemma u32_mark : u32 FREESECT.
Proof. unfold u32, FREESECT. lia. Qed.

Lemma Forall_zupd : forall A (P : A -> Prop) l i v, Forall P l -> P v -> Forall P (zupd l i v).
Proof.
  intros A P l i v H Hv. unfold zupd. destruct ((0 <=? i) && (i <? zlen l)); auto.
  generalize (Z.to_nat i). clear i. intros n. revert n. induction H; intros [|n]; cbn; auto.
Qed.
Lemma Forall_znth : forall A (P : A -> Prop) l i v, Forall P l -> znth l i = Some v -> P v.
Proof. intros A P l i v H E. apply znth_In in E. rewrite Forall_forall in H. auto. Qed.

Lemma grow_fat_Ext : forall s s', Ext s -> grow_fat s = Ok s' -> Ext s'.
Proof.
  intros s s' H E. unfold grow_fat in E. bindOk E. rename E0 into Hcap.
  assert (Hn : 2 <= ss s / 4) by (destruct (x_ss _ H) as [-> | ->]; vm_compute; discriminate).
  pose proof (zlen_nonneg _ (fat s)) as Hp.
  assert (U : u32 (zlen (fat s)) /\ u32 (zlen (fat s) + 1)) by (unfold u32; unfold MAXREGSECT in Hcap; lia). destruct U as [U0 U1].
  bindOk E. destruct p as [[s1 [t i]] nd]. inv E.
  assert (Q : ss s1 = ss s /\ mss s1 = mss s /\ mmax s1 = mmax s /\ minifat s1 = minifat s /\ minifat_chain s1 = minifat_chain s /\
     minifat_start s1 = minifat_start s /\ dir_cnt s1 = dir_cnt s /\ dir_chain s1 = dir_chain s /\ mini_chain s1 = mini_chain s /\
     Forall (Forall u32) (difat s1) /\ u32 (difat_start s1)).
  { destruct (find_slot (difat s)).
    - injection E0 as <- _ _. destruct H. auto 12.
    - set (table := repeat FREESECT (Z.to_nat (ss s / 4))) in *.
      assert (Ht : Forall u32 table) by (apply Forall_forall; intros x Hx; apply repeat_spec in Hx; subst; apply u32_mark).
      destruct (find_slot _) in E0; [|discriminate]. injection E0 as <- _ _. destruct H. destruct (difat_cnt s =? 0); cbn; repeat (split; [solve [auto]|]).
      + split; auto. apply Forall_app. split; auto.
      + split; auto. apply Forall_app. split; auto. destruct (znth (difat s) _) eqn:Er; auto. apply Forall_zupd; auto. apply Forall_zupd; auto.
        eapply Forall_znth in Er; eauto. }
  destruct Q as (Q1 & Q2 & Q3 & Q4 & Q5 & Q6 & Q7 & Q8 & Q9 & Q10 & Q11). destruct H. constructor; cbn; rewrite ?Q1, ?Q2, ?Q3, ?Q4, ?Q5, ?Q6, ?Q7, ?Q8, ?Q9; auto.
  unfold difat_set. destruct (znth (difat s1) t) eqn:Er; auto. apply Forall_zupd; auto. apply Forall_zupd; auto. eapply Forall_znth in Er; eauto.
Qed.

Lemma grow_fat_rest : forall s s', grow_fat s = Ok s' -> minifat s' = minifat s /\ minifat_chain s' = minifat_chain s /\ mini_chain s' = mini_chain s /\ dir_chain s' = dir_chain s.
Proof.
  intros s s' E. unfold grow_fat in E. bindOk E. bindOk E. destruct p as [[s1 [t i]] nd]. inv E. cbn.
  destruct (find_slot (difat s)); [injection E1 as <- _ _; auto|]. destruct (find_slot _) in E1; [|discriminate]. injection E1 as <- _ _.
  destruct (difat_cnt s =? 0); cbn; auto.
Qed.

Lemma next_free_sect_Ext : forall fuel s s' i, Ext s -> next_free_sect_f fuel s = Ok (s', i) -> Ext s' /\
  minifat s' = minifat s /\ minifat_chain s' = minifat_chain s /\ mini_chain s' = mini_chain s /\ dir_chain s' = dir_chain s.
Proof.
  induction fuel as [|n IH]; intros s s' i H E; cbn in E; [discriminate|]. destruct (ffree s) as [|j rest].
  - bindOk E. pose proof (grow_fat_Ext _ _ H E0) as H1. destruct (grow_fat_rest _ _ E0) as (R1 & R2 & R3 & R4).
    destruct (IH _ _ _ H1 E) as (H2 & S1 & S2 & S3 & S4). split; auto. repeat split; congruence.
  - destruct (znth (fat s) j); [|discriminate]. bindOk E. destruct (_ && _) in E.
    + apply IH in E; auto. eapply Keep_Ext; [|exact H]. keep.
    + inv E. split; auto. eapply Keep_Ext; [|exact H]. keep.
Qed.

Lemma mini_stream_grow_Ext : forall s s', Ext s -> minifat s <> [] -> mini_stream_grow s = Ok s' -> Ext s' /\ minifat s' = minifat s /\ minifat_chain s' = minifat_chain s.
Proof.
  intros s s' H N E. unfold mini_stream_grow in E. bindOk E. destruct p as [s1 i]. apply next_free_sect_Ext in E0; auto.
  destruct E0 as (H1 & R1 & R2 & R3 & R4). inv E. destruct (mini_chain s1) eqn:Em; (split; [|auto]).
  - destruct H1. constructor; cbn; auto. right. congruence.
  - destruct H1. constructor; cbn; auto. right. congruence.
Qed.

Lemma grow_minifat_Ext : forall s s', Ext s -> grow_minifat s = Ok s' -> Ext s' /\ minifat s' <> [].
Proof.
  intros s s' H E. unfold grow_minifat in E. bindOk E. bindOk E. destruct p as [s1 i]. apply next_free_sect_Ext in E1; auto.
  destruct E1 as (H1 & R1 & R2 & R3 & R4).
  assert (Hn : 2 <= ss s1 / 4) by (destruct (x_ss _ H1) as [-> | ->]; vm_compute; discriminate).
  assert (NE : minifat s1 ++ repeat FREESECT (Z.to_nat (ss s1 / 4)) <> []).
  { intros Q. apply app_eq_nil in Q. destruct Q as [_ Q]. replace (Z.to_nat (ss s1 / 4)) with (S (Z.to_nat (ss s1 / 4 - 1))) in Q by lia. discriminate. }
  cbn zeta in E. bindOk E. inv E. cbn [minifat_cnt set_mfree set_minifat minifat_chain] in E1.
  assert (L : forall c, zlen (minifat s1 ++ repeat FREESECT (Z.to_nat (ss s1 / 4))) = zlen (minifat_chain s1 ++ [c]) * (ss s1 / 4)).
  { intros c. rewrite !zlen_app, zlen_repeat, (x_mlen _ H1). change (zlen [c]) with 1. lia. }
  assert (NC : forall c, minifat_chain s1 ++ [c] = [] -> False) by (intros c Q; apply app_eq_nil in Q; destruct Q; discriminate).
  destruct (minifat_cnt s1 =? 0).
  - inv E1. cbn. split; auto. destruct H1. constructor; cbn; auto. intros Q. apply NC in Q. destruct Q.
  - destruct (minifat_chain s1) eqn:Ec; [discriminate|]. rewrite <- Ec in *. inv E1. cbn. split; auto. destruct H1. constructor; cbn; auto.
    intros Q. rewrite Ec in Q. discriminate.
Qed.

Lemma znth_ne : forall A (l : list A) i v, znth l i = Some v -> l <> [].
Proof. intros A l i v E ->. apply znth_Some in E. change (zlen (@nil A)) with 0 in E. lia. Qed.

Lemma next_free_minifat_sect_Ext : forall fuel s s' i, Ext s -> next_free_minifat_sect_f fuel s = Ok (s', i) -> Ext s'.
Proof.
  induction fuel as [|n IH]; intros s s' i H E; cbn in E; [discriminate|]. destruct (mfree s) as [|j rest].
  - bindOk E. apply grow_minifat_Ext in E0; auto. apply IH in E; tauto.
  - destruct (znth (minifat s) j) eqn:Ej; [|discriminate]. bindOk E. assert (H1 : Ext (set_mfree s rest)) by (eapply Keep_Ext; [|exact H]; keep).
    destruct (_ <? _).
    + bindOk E. inv E. apply mini_stream_grow_Ext in E1; auto; [tauto|]. cbn. apply znth_ne in Ej. auto.
    + inv E. auto.
Qed.

Lemma set_table_Ext : forall s k t, Ext s -> zlen t = zlen (table s k) -> Ext (set_table s k t).
Proof. intros s k t H L. eapply Keep_Ext; [|exact H]. destruct k; cbn in *; constructor; cbn; auto. Qed.

Lemma fat_chain_append_Ext : forall s st k s' i, Ext s -> fat_chain_append s st k = Ok (s', i) -> Ext s'.
Proof.
  intros s st k s' i H E. unfold fat_chain_append in E. bindOk E. destruct p as [s1 sect].
  assert (H1 : Ext s1). { destruct k; [eapply next_free_minifat_sect_Ext; eauto|]. apply next_free_sect_Ext in E0; tauto. }
  destruct st.
  - bindOk E. destruct p; [discriminate|]. inv E. apply set_table_Ext; auto. rewrite !zlen_zupd. auto.
  - inv E. apply set_table_Ext; auto. rewrite zlen_zupd. auto.
Qed.

Lemma zlen_fold_zupd : forall l (t : list Z) v, zlen (fold_left (fun t sid => zupd t sid v) l t) = zlen t.
Proof. induction l as [|x l IH]; intros t v; cbn; auto. rewrite IH, zlen_zupd. auto. Qed.

Lemma free_fat_chain_Ext : forall s st k s', Ext s -> free_fat_chain s st k = Ok s' -> Ext s'.
Proof.
  intros s st k s' H E. unfold free_fat_chain in E. bindOk E. inv E.
  assert (H1 : Ext (set_table s k (fold_left (fun t sid => zupd t sid FREESECT) p (table s k)))) by (apply set_table_Ext; auto; apply zlen_fold_zupd).
  destruct k; (eapply Keep_Ext; [|exact H1]); keep.
Qed.

Lemma set_sid_Ext : forall s e v, Ext s -> Ext (set_sid s e v).
Proof. intros. eapply Keep_Ext; [|eauto]. keep. Qed.
Lemma set_size_Ext : forall s e v, Ext s -> Ext (set_size s e v).
Proof. intros. eapply Keep_Ext; [|eauto]. keep. Qed.

Lemma read_sector_data_Ext : forall s sid s' d, Ext s -> read_sector_data s sid = (s', d) -> Ext s'.
Proof.
  intros s sid s' d H E. unfold read_sector_data in E. destruct (cache_get (cache s) sid); inv E; (eapply Keep_Ext; [|exact H]); keep.
Qed.

Lemma read_mini_Ext : forall fuel s c idx off left prev acc s' d, Ext s -> read_mini fuel s c idx off left prev acc = Ok (s', d) -> Ext s'.
Proof.
  induction fuel as [|n IH]; intros s c idx off left prev acc s' d H E; cbn in E; destruct (left <=? 0); try discriminate; try (inv E; auto; fail).
  destruct (znth c idx); [|discriminate]. destruct (znth (mini_chain s) _); [|discriminate].
  destruct (if _ =? _ then _ else _) as [s1 data] eqn:Er in E. bindOk E. bindOk E. apply IH in E; auto.
  destruct (_ =? fst prev) in Er; [inv Er; auto|eapply read_sector_data_Ext; eauto].
Qed.

Lemma read_reg_Ext : forall fuel s c idx off left acc s' d, Ext s -> read_reg fuel s c idx off left acc = Ok (s', d) -> Ext s'.
Proof.
  induction fuel as [|n IH]; intros s c idx off left acc s' d H E; cbn in E; destruct (left <=? 0); try discriminate; try (inv E; auto; fail).
  destruct (znth c idx); [|discriminate]. destruct (read_sector_data s z) as [s1 data] eqn:Er. bindOk E. bindOk E. apply IH in E; auto.
  eapply read_sector_data_Ext; eauto.
Qed.

Lemma stream_read_Ext : forall s h n s' h' d, Ext s -> stream_read s h n = Ok (s', h', d) -> Ext s'.
Proof.
  intros s h n s' h' d H E. unfold stream_read in E. bindOk E. destruct p as [s1 d1]. inv E.
  destruct (_ <? mmax s) in E0; [eapply read_mini_Ext|eapply read_reg_Ext]; eauto.
Qed.

Lemma write_mini_Ext : forall fuel s c idx off d s', Ext s -> write_mini fuel s c idx off d = Ok s' -> Ext s'.
Proof.
  induction fuel as [|n IH]; intros s c idx off d s' H E; cbn in E; destruct (zlen d <=? 0); try discriminate; try (inv E; auto; fail).
  destruct (znth c idx); [|discriminate]. destruct (znth (mini_chain s) _); [|discriminate]. bindOk E. apply IH in E; auto. eapply Keep_Ext; [|exact H]. keep.
Qed.
Lemma write_reg_Ext : forall fuel s c idx off d s', Ext s -> write_reg fuel s c idx off d = Ok s' -> Ext s'.
Proof.
  induction fuel as [|n IH]; intros s c idx off d s' H E; cbn in E; destruct (zlen d <=? 0); try discriminate; try (inv E; auto; fail).
  destruct (znth c idx); [|discriminate]. bindOk E. apply IH in E; auto. eapply Keep_Ext; [|exact H]. keep.
Qed.

Lemma write_gen_Ext : forall (al : cfb -> handle -> Z -> result (cfb * handle)) s h d s' h',
  (forall s h n s' h', Ext s -> al s h n = Ok (s', h') -> Ext s') -> Ext s -> write_gen al s h d = Ok (s', h') -> Ext s'.
Proof.
  intros al s h d s' h' A H E. unfold write_gen in E. bindOk E. destruct p as [s1 h1].
  assert (H1 : Ext s1) by (destruct (_ <? _) in E0; [eauto|inv E0; auto]). bindOk E. bindOk E. inv E.
  destruct (_ <? mmax s1) in E1; [eapply write_mini_Ext|eapply write_reg_Ext]; eauto.
Qed.

Lemma alloc_loop_Ext : forall fuel s h k c s' h', Ext s -> alloc_loop fuel s h k c = Ok (s', h') -> Ext s'.
Proof.
  induction fuel as [|n IH]; intros s h k c s' h' H E; cbn in E; destruct (c <=? zlen (h_chain h)); try discriminate; try (inv E; auto; fail).
  bindOk E. destruct p as [s1 sid]. apply fat_chain_append_Ext in E0; auto. apply IH in E; auto. destruct (e_sid _); auto. apply set_sid_Ext. auto.
Qed.

Lemma allocate_Ext : forall s h n s' h', Ext s -> allocate s h n = Ok (s', h') -> Ext s'.
Proof.
  intros s h n s' h' H E. unfold allocate in E. bindOk E. destruct p as [[[s1 h1] k1] saved].
  assert (H1 : Ext s1).
  { destruct (_ && _) in E0; [|inv E0; auto]. bindOk E0. destruct p as [[s2 h2] data]. bindOk E0. bindOk E0. inv E0. apply set_sid_Ext.
    apply stream_read_Ext in E1; auto. eapply free_fat_chain_Ext; eauto. }
  bindOk E. destruct p as [s3 h3]. apply alloc_loop_Ext in E1; [|apply set_size_Ext; auto].
  destruct saved as [[data orig]|]; [|inv E; auto]. bindOk E. destruct p as [s4 h4]. inv E. eapply write_gen_Ext; [| |exact E2]; auto.
  intros. discriminate.
Qed.

Lemma stream_write_Ext : forall s h d s' h', Ext s -> stream_write s h d = Ok (s', h') -> Ext s'.
Proof. intros s h d s' h' H E. eapply write_gen_Ext; [|exact H|exact E]. apply allocate_Ext. Qed.

Lemma pad_loop_Ext : forall fuel s h o l s' h', Ext s -> pad_loop fuel s h o l = Ok (s', h') -> Ext s'.
Proof.
  induction fuel as [|n IH]; intros s h o l s' h' H E; cbn in E; destruct (l =? 0); try discriminate; try (inv E; auto; fail).
  bindOk E. destruct p as [s1 h1]. apply stream_write_Ext in E0; auto. apply IH in E; auto.
Qed.

Lemma stream_seek_Ext : forall s h o w s' h' p, Ext s -> stream_seek s h o w = Ok (s', h', p) -> Ext s'.
Proof.
  intros s h o w s' h' p H E. unfold stream_seek in E. bindOk E. bindOk E. destruct p0 as [s1 h1]. inv E.
  destruct (_ <? _) in E1; [eapply pad_loop_Ext; eauto|inv E1; auto].
Qed.

Lemma stream_truncate_Ext : forall s h a s' h', Ext s -> stream_truncate s h a = Ok (s', h') -> Ext s'.
Proof.
  intros s h a s' h' H E. unfold stream_truncate in E. destruct (_ =? 0) in E.
  - bindOk E. inv E. apply set_size_Ext, set_sid_Ext. eapply free_fat_chain_Ext; eauto.
  - destruct (_ <? _) in E; [eapply allocate_Ext; eauto|]. destruct (_ && _ && _) in E.
    + bindOk E. destruct p as [[s1 h1] data]. apply stream_read_Ext in E0; auto. bindOk E. apply free_fat_chain_Ext in E1; auto.
      bindOk E. destruct p0 as [s4 h4]. bindOk E. inv E. apply stream_write_Ext in E2; auto. apply set_size_Ext, set_sid_Ext. auto.
    + bindOk E. destruct p as [s1 c]. inv E. apply set_size_Ext. destruct (_ <? _) in E0; [|inv E0; auto].
      destruct (znth _ _) in E0; [|discriminate]. destruct (znth _ _) in E0; [|discriminate]. bindOk E0. inv E0.
      match goal with F : free_fat_chain _ _ _ = Ok _ |- _ => apply free_fat_chain_Ext in F; auto end.
      apply set_table_Ext; auto. rewrite zlen_zupd. auto.
Qed.

Lemma stream_reset_Ext : forall s e s' h', Ext s -> stream_reset s e = Ok (s', h') -> Ext s'.
Proof.
  intros s e s' h' H E. unfold stream_reset in E. bindOk E. bindOk E. inv E. apply set_size_Ext, set_sid_Ext. eapply free_fat_chain_Ext; eauto.
Qed.

Lemma fat_chain_append_dir : forall s st s' i, Ext s -> fat_chain_append s st false = Ok (s', i) -> dir_chain s' = dir_chain s.
Proof.
  intros s st s' i H E. unfold fat_chain_append in E. bindOk E. destruct p as [s1 sect]. apply next_free_sect_Ext in E0; auto.
  destruct E0 as (_ & _ & _ & _ & R). destruct st; [|inv E; cbn; auto]. bindOk E. destruct p; [discriminate|]. inv E. cbn. auto.
Qed.

Lemma next_free_dir_id_Ext : forall fuel s s' i, Ext s -> next_free_dir_id_f fuel s = Ok (s', i) -> Ext s'.
Proof.
  induction fuel as [|n IH]; intros s s' i H E; cbn in E; [discriminate|]. destruct (dir_free s) as [|j rest].
  - destruct (dir_chain s) eqn:Ed; [discriminate|]. bindOk E. destruct p as [s1 sect]. pose proof (fat_chain_append_Ext _ _ _ _ _ H E0) as H1.
    apply IH in E; auto. destruct H1. constructor; cbn; auto. rewrite zlen_app. change (zlen [sect]) with 1. lia.
  - inv E. eapply Keep_Ext; [|exact H]. keep.
Qed.

Lemma entry_new_Ext : forall s s' i, Ext s -> entry_new s = Ok (s', i) -> Ext s'.
Proof.
  intros s s' i H E. unfold entry_new in E. bindOk E. destruct p as [s1 j]. inv E. apply set_size_Ext, set_sid_Ext. eapply next_free_dir_id_Ext; eauto.
Qed.

Lemma stream_remove_Ext : forall s e s', Ext s -> stream_remove s e = Ok s' -> Ext s'.
Proof.
  intros s e s' H E. unfold stream_remove in E. bindOk E. inv E. apply free_fat_chain_Ext in E0; auto. eapply Keep_Ext; [|exact E0]. keep.
Qed.

Lemma setup_Ext : forall sector cap f, sector = 512 \/ sector = 4096 -> Ext (setup_empty sector cap f).
Proof.
  intros sector cap f H. constructor; cbn; auto.
  - unfold u32. lia.
  - constructor; [|constructor]. constructor; [unfold u32; lia|]. apply Forall_forall. intros x Hx. apply (repeat_spec 108) in Hx. subst. apply u32_mark.
  - apply u32_mark.
Qed.
