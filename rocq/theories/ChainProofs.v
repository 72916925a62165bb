(** get_fat_chain (cfb.py:1760-1785) follows chains exactly and always terminates. *)
From Verif Require Import Base BaseFacts CfbModel ChainSpec.
From Coq Require Import ZArith List Bool Lia.
Import ListNotations.
Open Scope Z_scope.

Section Chain.
Variable tbl : list Z.

(** [runs b l x]: from [b] the sectors [l] are passed and the walk stops at [x] (end mark or
    outside of the table) *)
Inductive runs : Z -> list Z -> Z -> Prop :=
| runs_stop : forall b, b = ENDOFCHAIN \/ (b <> ENDOFCHAIN /\ znth tbl b = None) -> runs b [] b
| runs_step : forall b b' l x, b <> ENDOFCHAIN -> znth tbl b = Some b' -> runs b' l x -> runs b (b :: l) x.

Lemma runs_det : forall b l x, runs b l x -> forall l' x', runs b l' x' -> l = l' /\ x = x'.
Proof.
  induction 1 as [b Hb|b b' l x Hne Hn Hr IH]; intros l' x' H'; inversion H'; subst; auto.
  - destruct Hb as [Hb|[Hb1 Hb2]]; congruence.
  - destruct H as [Hb|[Hb1 Hb2]]; congruence.
  - assert (b' = b'0) by congruence. subst b'0. destruct (IH _ _ H1). subst. auto.
Qed.

Lemma runs_suffix : forall b l x, runs b l x -> forall y l1 l2, l = l1 ++ y :: l2 -> runs y (y :: l2) x.
Proof.
  induction 1 as [b Hb|b b' l x Hne Hn Hr IH]; intros y l1 l2 E.
  - destruct l1; discriminate.
  - destruct l1 as [|z l1]; cbn in E; inversion E; subst.
    + econstructor; eauto.
    + eapply IH; eauto.
Qed.

Lemma runs_NoDup : forall b l x, runs b l x -> NoDup l.
Proof.
  induction 1 as [b Hb|b b' l x Hne Hn Hr IH]; constructor; auto.
  intro Hin. apply in_split in Hin. destruct Hin as [l1 [l2 E]].
  pose proof (runs_suffix _ _ _ Hr _ _ _ E) as H1.
  assert (H2 : runs b (b :: l) x) by (econstructor; eauto).
  destruct (runs_det _ _ _ H1 _ _ H2) as [E2 _]. inversion E2. subst.
  apply (f_equal (@length Z)) in H0. rewrite app_length in H0. cbn in H0. lia.
Qed.

Lemma runs_in_table : forall b l x, runs b l x -> forall y, In y l -> 0 <= y < zlen tbl /\ y <> ENDOFCHAIN.
Proof.
  induction 1 as [b Hb|b b' l x Hne Hn Hr IH]; intros y Hy; [destruct Hy|].
  destruct Hy as [<-|Hy]; auto. split; auto. apply znth_Some in Hn. lia.
Qed.

Lemma runs_length : forall b l x, runs b l x -> (length l <= length tbl)%nat.
Proof.
  intros b l x H.
  assert (length l <= length (zseq 0 (zlen tbl)))%nat.
  { apply NoDup_incl_length; [eapply runs_NoDup; eauto|].
    intros y Hy. apply In_zseq. pose proof (runs_in_table _ _ _ H y Hy). lia. }
  unfold zseq in H0. rewrite map_length, seq_length in H0. unfold zlen in H0. lia.
Qed.

Lemma runs_chain : forall b l, runs b l ENDOFCHAIN <-> chain_from tbl b l.
Proof.
  intros b l. split.
  - intros H. remember ENDOFCHAIN as x. induction H as [b Hb|b b' l x Hne Hn Hr IH].
    + subst b. constructor.
    + econstructor; eauto.
  - induction 1 as [|b b' l Hne Hn Hr IH].
    + constructor. auto.
    + econstructor; eauto.
Qed.

Lemma runs_follow : forall b l x, runs b l x -> follow tbl (length l) b = Some x.
Proof.
  induction 1 as [b Hb|b b' l x Hne Hn Hr IH]; cbn; auto.
  apply Z.eqb_neq in Hne. rewrite Hne, Hn. auto.
Qed.

Lemma runs_stops : forall b l x, runs b l x -> x = ENDOFCHAIN \/ (x <> ENDOFCHAIN /\ znth tbl x = None).
Proof. induction 1; auto. Qed.

Lemma follow_runs : forall n b x, follow tbl n b = Some x -> (x = ENDOFCHAIN \/ (x <> ENDOFCHAIN /\ znth tbl x = None)) ->
  exists l, runs b l x.
Proof.
  induction n; intros b x H Hx; cbn in H.
  - inversion H; subst. exists []. constructor. auto.
  - destruct (b =? ENDOFCHAIN) eqn:E; [discriminate|]. apply Z.eqb_neq in E.
    destruct (znth tbl b) as [b'|] eqn:En; [|discriminate].
    destruct (IHn _ _ H Hx) as [l Hl]. exists (b :: l). econstructor; eauto.
Qed.

(** an Ok answer is the exact chain, whatever the second pointer does *)
Lemma loop_sound : forall fuel a b acc r, chain_loop fuel tbl a b acc = Ok r ->
  exists l, r = rev acc ++ l /\ chain_from tbl b l.
Proof.
  induction fuel as [|n IH]; intros a b acc r H; cbn [chain_loop] in H; destruct (b =? ENDOFCHAIN) eqn:Eb.
  - apply Z.eqb_eq in Eb; subst b. inversion H; subst. exists []. rewrite app_nil_r. split; auto. constructor.
  - discriminate.
  - apply Z.eqb_eq in Eb; subst b. inversion H; subst. exists []. rewrite app_nil_r. split; auto. constructor.
  - apply Z.eqb_neq in Eb. destruct (znth tbl b) as [b'|] eqn:En; [|discriminate].
    assert (Hgo : forall a', chain_loop n tbl a' b' (b :: acc) = Ok r -> exists l, r = rev acc ++ l /\ chain_from tbl b l).
    { intros a' H'. destruct (IH _ _ _ _ H') as [l [E C]]. exists (b :: l). split.
      - rewrite E. cbn. rewrite <- app_assoc. reflexivity.
      - econstructor; eauto. }
    destruct (a =? ENDOFCHAIN); [eauto|]. destruct (znth tbl a) as [a1|]; [|discriminate].
    destruct (a1 =? ENDOFCHAIN); [eauto|]. destruct (znth tbl a1) as [a2|]; [|discriminate].
    destruct (a2 =? b'); [discriminate|eauto].
Qed.

(** if the walk stops, the loop gives the chain or IndexError *)
Lemma loop_runs : forall fuel a b acc la lb x,
  runs a la x -> runs b lb x -> (length la <= length lb)%nat -> (length lb < fuel)%nat ->
  chain_loop fuel tbl a b acc = if x =? ENDOFCHAIN then Ok (rev acc ++ lb) else Err IndexError.
Proof.
  induction fuel as [|n IH]; intros a b acc la lb x Ha Hb Hlen Hfuel; [lia|].
  cbn [chain_loop].
  inversion Hb as [b0 Hstop|b0 b' l x0 Hne Hn Hr]; subst.
  - destruct Hstop as [->|[Hne Hn]].
    + rewrite !Z.eqb_refl. rewrite app_nil_r. auto.
    + apply Z.eqb_neq in Hne. rewrite Hne, Hn. auto.
  - assert (Hb0 : (b =? ENDOFCHAIN) = false) by (apply Z.eqb_neq; auto). rewrite Hb0, Hn.
    assert (Hrec : forall a' la', runs a' la' x -> (length la' <= length l)%nat ->
       chain_loop n tbl a' b' (b :: acc) = if x =? ENDOFCHAIN then Ok (rev acc ++ b :: l) else Err IndexError).
    { intros a' la' Ha' Hl. rewrite (IH a' b' (b :: acc) la' l x Ha' Hr Hl) by (cbn in Hfuel; lia).
      cbn [rev]. rewrite <- app_assoc. reflexivity. }
    inversion Ha as [a0 Hstop|a0 a1 la1 x0 Hane Han Har]; subst.
    + destruct Hstop as [->|[Hxne Hxn]].
      * rewrite Z.eqb_refl. rewrite (Hrec ENDOFCHAIN []); [rewrite Z.eqb_refl; auto| |cbn; lia]. constructor; auto.
      * pose proof Hxne as Hxne'. apply Z.eqb_neq in Hxne. rewrite Hxne, Hxn. auto.
    + assert (Ha0 : (a =? ENDOFCHAIN) = false) by (apply Z.eqb_neq; auto). rewrite Ha0, Han.
      inversion Har as [a0 Hstop|a0 a2 la2 x0 H1ne H1n H1r]; subst.
      * destruct Hstop as [->|[Hxne Hxn]].
        -- rewrite Z.eqb_refl. rewrite (Hrec ENDOFCHAIN []); [rewrite Z.eqb_refl; auto| |cbn; lia]. constructor; auto.
        -- pose proof Hxne as Hxne'. apply Z.eqb_neq in Hxne. rewrite Hxne, Hxn. auto.
      * assert (Ha1 : (a1 =? ENDOFCHAIN) = false) by (apply Z.eqb_neq; auto). rewrite Ha1, H1n.
        destruct (a2 =? b') eqn:E.
        -- exfalso. apply Z.eqb_eq in E. subst a2. destruct (runs_det _ _ _ H1r _ _ Hr) as [E1 _]. subst.
           cbn in Hlen. lia.
        -- apply Hrec with la2; auto. cbn in Hlen. lia.
Qed.

(** either the walk stops, or it can be followed any number of steps *)
Lemma follow_total : forall n b, (exists l x, runs b l x /\ (length l < n)%nat) \/
  (exists os, length os = n /\ forall i, (i < n)%nat -> exists x, nth_error os i = Some x /\ follow tbl i b = Some x /\ 0 <= x < zlen tbl /\ x <> ENDOFCHAIN).
Proof.
  induction n; intros b.
  - right. exists []. split; auto. intros; lia.
  - destruct (Z.eq_dec b ENDOFCHAIN) as [->|Hne].
    + left. exists [], ENDOFCHAIN. split; [constructor; auto|cbn; lia].
    + destruct (znth tbl b) as [b'|] eqn:En.
      * destruct (IHn b') as [[l [x [Hr Hl]]]|[os [Hlen Hos]]].
        -- left. exists (b :: l), x. split; [econstructor; eauto|cbn; lia].
        -- right. exists (b :: os). split; [cbn; lia|]. intros i Hi. destruct i as [|i].
           ++ exists b. split; [reflexivity|]. split; [reflexivity|]. apply znth_Some in En. split; [lia|auto].
           ++ destruct (Hos i ltac:(lia)) as [x [H1 [H2 H3]]]. exists x. split; [auto|]. split; [|auto].
              cbn. assert ((b =? ENDOFCHAIN) = false) by (apply Z.eqb_neq; auto). rewrite H, En. auto.
      * left. exists [], b. split; [constructor; auto|cbn; lia].
Qed.

Lemma follow_add : forall m n b x, follow tbl m b = Some x -> follow tbl (m + n) b = follow tbl n x.
Proof.
  induction m; intros n b x H; cbn in *.
  - inversion H; auto.
  - destruct (b =? ENDOFCHAIN); [discriminate|]. destruct (znth tbl b) as [b'|]; [|discriminate]. apply IHm. auto.
Qed.

(** pigeonhole: a list of more than k numbers in [0,k) repeats *)
Lemma pigeon : forall (os : list Z) k, (forall x, In x os -> 0 <= x < Z.of_nat k) -> (k < length os)%nat ->
  exists p q x, (p < q < length os)%nat /\ nth_error os p = Some x /\ nth_error os q = Some x.
Proof.
  intros os k Hin Hlen.
  assert (Hnd : ~ NoDup os).
  { intro ND. assert (length os <= length (zseq 0 (Z.of_nat k)))%nat.
    { apply NoDup_incl_length; auto. intros x Hx. apply In_zseq. specialize (Hin x Hx). lia. }
    unfold zseq in H. rewrite map_length, seq_length in H. lia. }
  clear Hin Hlen k. induction os as [|y os IH].
  - exfalso. apply Hnd. constructor.
  - destruct (in_dec Z.eq_dec y os) as [Hy|Hy].
    + apply In_nth_error in Hy. destruct Hy as [q Hq]. exists 0%nat, (S q), y. split; [|auto].
      assert (q < length os)%nat by (apply nth_error_Some; congruence). cbn. lia.
    + assert (~ NoDup os) by (intro; apply Hnd; constructor; auto).
      destruct (IH H) as [p [q [x [H1 [H2 H3]]]]]. exists (S p), (S q), x. cbn. split; [lia|auto].
Qed.

(** the loop unrolled i times on an unending walk *)
Lemma loop_unroll : forall fuel a b acc,
  chain_loops tbl b -> (exists j, follow tbl j b = Some a) ->
  (exists i ai bi, (1 <= i <= fuel)%nat /\ follow tbl (2 * i) a = Some ai /\ follow tbl i b = Some bi /\ ai = bi) ->
  chain_loop fuel tbl a b acc = Err CompoundError.
Proof.
  induction fuel as [|n IH]; intros a b acc HL Hj Hmeet.
  - destruct Hmeet as [i [ai [bi [Hi _]]]]. lia.
  - cbn [chain_loop].
    assert (step : forall c, (exists j, follow tbl j b = Some c) -> exists c', c <> ENDOFCHAIN /\ znth tbl c = Some c' /\ (exists j, follow tbl j b = Some c')).
    { intros c [j Hc]. destruct (HL j) as [y [Hy1 Hy2]]. assert (y = c) by congruence. subst y.
      destruct (HL (j + 1)%nat) as [z [Hz1 Hz2]]. rewrite (follow_add j 1 b c Hc) in Hz1. cbn in Hz1.
      destruct (c =? ENDOFCHAIN); [discriminate|]. destruct (znth tbl c) as [c'|] eqn:Ec; [|discriminate].
      exists c'. split; [auto|]. split; [auto|]. exists (j + 1)%nat. rewrite (follow_add j 1 b c Hc). cbn.
      assert ((c =? ENDOFCHAIN) = false) by (apply Z.eqb_neq; auto). rewrite H, Ec. auto. }
    destruct (step b (ex_intro _ 0%nat eq_refl)) as [b' [Hb1 [Hb2 Hb3]]].
    destruct (step a Hj) as [a1 [Ha1 [Ha2 Ha3]]].
    destruct (step a1 Ha3) as [a2 [Hc1 [Hc2 Hc3]]].
    apply Z.eqb_neq in Hb1 as Eb1. apply Z.eqb_neq in Ha1 as Ea1. apply Z.eqb_neq in Hc1 as Ec1.
    rewrite Eb1, Hb2, Ea1, Ha2, Ec1, Hc2.
    destruct (a2 =? b') eqn:E; auto.
    apply IH.
    + intros m. destruct (HL (S m)) as [y [Hy1 Hy2]]. exists y. split; auto. cbn in Hy1. rewrite Eb1, Hb2 in Hy1. auto.
    + destruct Hc3 as [j Hj2].
      destruct j as [|j].
      * (* a2 = b itself: b is on a cycle; walk on from b' to b again *)
        cbn in Hj2. inversion Hj2; subst a2.
        destruct Hj as [j Hj]. 
        assert (F : follow tbl (j + 2) b = Some b).
        { rewrite (follow_add j 2 b a Hj). cbn. rewrite Ea1, Ha2, Ec1, Hc2. auto. }
        replace (j + 2)%nat with (S (j + 1)) in F by lia. cbn in F. rewrite Eb1, Hb2 in F. exists (j + 1)%nat. auto.
      * cbn in Hj2. rewrite Eb1, Hb2 in Hj2. exists j. auto.
    + destruct Hmeet as [i [ai [bi [Hi [H1 [H2 H3]]]]]]. destruct i as [|i]; [lia|].
      replace (2 * S i)%nat with (S (S (2 * i))) in H1 by lia. cbn in H1. rewrite Ea1, Ha2, Ec1, Hc2 in H1.
      cbn in H2. rewrite Eb1, Hb2 in H2.
      destruct i as [|i].
      * exfalso. cbn in H1, H2. inversion H1; inversion H2; subst. rewrite Z.eqb_refl in E. discriminate.
      * exists (S i), ai, bi. split; [lia|]. auto.
Qed.

Lemma floyd : forall b, chain_loops tbl b ->
  exists i ai bi, (1 <= i <= length tbl)%nat /\ follow tbl (2 * i) b = Some ai /\ follow tbl i b = Some bi /\ ai = bi.
Proof.
  intros b HL. set (k := length tbl).
  destruct (follow_total (S k) b) as [[l [x [Hr _]]]|[os [Hlen Hos]]].
  - exfalso. pose proof (runs_follow _ _ _ Hr) as Hf. pose proof (runs_stops _ _ _ Hr) as Hs.
    destruct (HL (length l)) as [y [Hy1 Hy2]]. assert (x = y) by congruence. subst y.
    destruct Hs as [->|[_ Hn]]; [congruence|].
    destruct (HL (length l + 1)%nat) as [z [Hz1 _]]. rewrite (follow_add _ 1 b x Hf) in Hz1. cbn in Hz1.
    rewrite Hn in Hz1. destruct (x =? ENDOFCHAIN); discriminate.
  - destruct (pigeon os k) as [p [q [x [Hpq [Hp Hq]]]]].
    + intros x Hx. apply In_nth_error in Hx. destruct Hx as [i Hi].
      assert (Hi2 : (i < S k)%nat) by (rewrite <- Hlen; apply nth_error_Some; congruence).
      destruct (Hos i Hi2) as [y [H1 [_ [H2 _]]]]. assert (x = y) by congruence. subst. unfold zlen in H2. fold k in H2. lia.
    + lia.
    + assert (Fp : follow tbl p b = Some x) by (destruct (Hos p ltac:(lia)) as [y [H1 [H2 _]]]; congruence).
      assert (Fq : follow tbl q b = Some x) by (destruct (Hos q ltac:(lia)) as [y [H1 [H2 _]]]; congruence).
      set (lam := (q - p)%nat).
      assert (Fx : follow tbl lam x = Some x).
      { rewrite <- (follow_add p lam b x Fp). replace (p + lam)%nat with q by (unfold lam; lia). auto. }
      assert (Fm : forall m, follow tbl (m * lam) x = Some x).
      { induction m; cbn; auto. rewrite (follow_add lam _ x x Fx). auto. }
      (* i = the multiple of lam in [max p 1, q] *)
      set (m := (p / lam + (if (p mod lam =? 0)%nat then 0 else 1))%nat).
      assert (Hlam : (1 <= lam)%nat) by (unfold lam; lia).
      pose proof (Nat.div_mod p lam ltac:(lia)) as Hdm.
      pose proof (Nat.mod_upper_bound p lam ltac:(lia)) as Hmb.
      set (mm := if (p =? 0)%nat then 1%nat else m).
      assert (Hi : (p <= mm * lam <= q)%nat /\ (1 <= mm * lam)%nat).
      { unfold mm. destruct (p =? 0)%nat eqn:Ep.
        - apply Nat.eqb_eq in Ep. unfold lam. lia.
        - apply Nat.eqb_neq in Ep. unfold m. destruct (p mod lam =? 0)%nat eqn:Em.
          + apply Nat.eqb_eq in Em. rewrite Nat.add_0_r. unfold lam in *. nia.
          + apply Nat.eqb_neq in Em. assert (q = p + lam)%nat by (unfold lam; lia). nia. }
      set (i := (mm * lam)%nat) in *.
      assert (Fi : exists y, follow tbl i b = Some y).
      { destruct (HL i) as [y [Hy _]]. eauto. }
      destruct Fi as [y Fy].
      exists i, y, y. split; [lia|]. split; [|auto].
      (* follow (2i) b = follow i y ; y lies on the cycle, period lam divides i *)
      assert (Ey : follow tbl i y = Some y).
      { assert (Fd : follow tbl (i - p) x = Some y).
        { rewrite <- (follow_add p (i - p) b x Fp). replace (p + (i - p))%nat with i by lia. auto. }
        assert (F1 : follow tbl (i - p + i) x = follow tbl i y) by (apply follow_add; auto).
        assert (F2 : follow tbl (i + (i - p)) x = follow tbl (i - p) x) by (apply follow_add; unfold i; auto).
        replace (i - p + i)%nat with (i + (i - p))%nat in F1 by lia. congruence. }
      replace (2 * i)%nat with (i + i)%nat by lia. rewrite (follow_add i i b y Fy). auto.
Qed.

Lemma get_chain_classify : forall b, special_sid b = false ->
  (exists l, chain_from tbl b l /\ get_fat_chain tbl (Some b) = Ok l) \/
  (chain_leaves tbl b /\ get_fat_chain tbl (Some b) = Err IndexError) \/
  (chain_loops tbl b /\ get_fat_chain tbl (Some b) = Err CompoundError).
Proof.
  intros b Hsp. unfold get_fat_chain. unfold special_sid in Hsp. rewrite Hsp.
  destruct (follow_total (S (length tbl)) b) as [[l [x [Hr _]]]|[os [Hlen Hos]]].
  - pose proof (runs_length _ _ _ Hr) as Hl.
    rewrite (loop_runs (S (length tbl)) b b [] l l x Hr Hr) by lia.
    destruct (runs_stops _ _ _ Hr) as [->|[Hne Hn]].
    + left. exists l. rewrite Z.eqb_refl. split; auto. apply runs_chain; auto.
    + right; left. apply Z.eqb_neq in Hne as Hne'. rewrite Hne'. split; auto.
      exists (length l), x. split; auto. apply runs_follow; auto.
  - right; right.
    assert (HL : chain_loops tbl b).
    { destruct (pigeon os (length tbl)) as [p [q [x [Hpq [Hp Hq]]]]].
      - intros x Hx. apply In_nth_error in Hx. destruct Hx as [i Hi].
        assert (Hi2 : (i < S (length tbl))%nat) by (rewrite <- Hlen; apply nth_error_Some; congruence).
        destruct (Hos i Hi2) as [y [H1 [_ [H2 _]]]]. assert (x = y) by congruence. subst. unfold zlen in H2. lia.
      - lia.
      - intros n.
        destruct (follow_total (S n) b) as [[l [z [Hr Hl]]]|[os' [_ Hos']]].
        + exfalso.
          assert (Fp : follow tbl p b = Some x) by (destruct (Hos p ltac:(lia)) as [y [H1 [H2 _]]]; congruence).
          assert (Fq : follow tbl q b = Some x) by (destruct (Hos q ltac:(lia)) as [y [H1 [H2 _]]]; congruence).
          pose proof (runs_length _ _ _ Hr) as Hl2.
          destruct (Hos (length l) ltac:(lia)) as [y [H1 [H2 [H3 H4]]]].
          rewrite (runs_follow _ _ _ Hr) in H2. inversion H2; subst y.
          destruct (runs_stops _ _ _ Hr) as [->|[_ Hn]]; [congruence|].
          apply znth_None in Hn. lia.
        + destruct (Hos' n ltac:(lia)) as [y [_ [H2 [_ H4]]]]. exists y. auto. }
    split; auto. apply loop_unroll; auto.
    + exists 0%nat. auto.
    + destruct (floyd b HL) as [i [ai [bi [Hi H]]]]. exists i, ai, bi. split; [lia|auto].
Qed.

Lemma chain_from_excl : forall b l, chain_from tbl b l -> ~ chain_leaves tbl b /\ ~ chain_loops tbl b.
Proof.
  intros b l H. apply runs_chain in H. split.
  - intros [n [x [Hf [Hne Hn]]]]. destruct (follow_runs n b x Hf (or_intror (conj Hne Hn))) as [l' Hr].
    destruct (runs_det _ _ _ H _ _ Hr). congruence.
  - intros HL. destruct (HL (length l)) as [x [Hx1 Hx2]]. rewrite (runs_follow _ _ _ H) in Hx1. congruence.
Qed.

Lemma leaves_not_loops : forall b, chain_leaves tbl b -> ~ chain_loops tbl b.
Proof.
  intros b [n [x [Hf [Hne Hn]]]] HL. destruct (HL (n + 1)%nat) as [y [Hy _]].
  rewrite (follow_add n 1 b x Hf) in Hy. cbn in Hy. rewrite Hn in Hy. destruct (x =? ENDOFCHAIN); discriminate.
Qed.

Lemma get_chain_Ok : forall b l, special_sid b = false -> chain_from tbl b l -> get_fat_chain tbl (Some b) = Ok l.
Proof.
  intros b l Hs H. destruct (chain_from_excl b l H) as [H1 H2].
  destruct (get_chain_classify b Hs) as [[l' [C E]]|[[C E]|[C E]]]; try contradiction.
  apply runs_chain in C, H. destruct (runs_det _ _ _ C _ _ H). subst. auto.
Qed.
End Chain.

Lemma chain_from_NoDup : forall tbl b l, chain_from tbl b l -> NoDup l.
Proof. intros. apply runs_chain in H. eapply runs_NoDup; eauto. Qed.
Lemma chain_from_range : forall tbl b l, chain_from tbl b l -> forall x, In x l -> 0 <= x < zlen tbl /\ x <> ENDOFCHAIN.
Proof. intros. apply runs_chain in H. eapply runs_in_table; eauto. Qed.
