(** Ownership invariant of one allocation table (FAT or mini FAT) and the table-level effect of
    the operations of cfb.py:1564-1680 and 1787-1830 on it. *)
From Verif Require Import Base BaseFacts CfbModel ChainSpec ChainProofs.
From Coq Require Import ZArith List Bool Lia.
Import ListNotations.
Open Scope Z_scope.

(** who a sector belongs to: the free list, a sector just taken and not yet linked, the directory
    chain, the mini FAT chain, the mini-stream container, or the stream of entry [e] *)
Inductive owner : Type := OFree | OLim | ODir | OMFat | OCont | OStr (e : Z).

Definition owner_eq_dec : forall a b : owner, {a = b} + {a <> b}.
Proof. decide equality. apply Z.eq_dec. Defined.

Definition oupd {A} (f : owner -> A) (o : owner) (v : A) : owner -> A :=
  fun o' => if owner_eq_dec o' o then v else f o'.

Lemma oupd_same : forall A (f : owner -> A) o v, oupd f o v o = v.
Proof. intros. unfold oupd. destruct (owner_eq_dec o o); congruence. Qed.
Lemma oupd_other : forall A (f : owner -> A) o v o', o' <> o -> oupd f o v o' = f o'.
Proof. intros. unfold oupd. destruct (owner_eq_dec o' o); congruence. Qed.

Definition chain_owner (o : owner) : Prop := o <> OFree /\ o <> OLim.

(** a chain with its start as stored in the header or a directory entry *)
Definition linked (tbl : list Z) (start : option Z) (l : list Z) : Prop :=
  match start with
  | None => l = []
  | Some b => special_sid b = false /\ chain_from tbl b l
  end.

Record TInv (tbl : list Z) (own : owner -> list Z) (start : owner -> option Z) : Prop := {
  ti_len : zlen tbl <= MAXREGSECT;
  ti_link : forall o, chain_owner o -> linked tbl (start o) (own o);
  ti_free : forall o x, ~ chain_owner o -> In x (own o) -> znth tbl x = Some FREESECT;
  ti_nodup : forall o, NoDup (own o);
  ti_disj : forall o1 o2 x, In x (own o1) -> In x (own o2) -> o1 = o2 }.

Lemma chain_owner_dec : forall o, chain_owner o \/ ~ chain_owner o.
Proof. intros []; unfold chain_owner; (left; split; discriminate) || (right; intros []; congruence). Qed.

Lemma not_chain_owner : forall o, ~ chain_owner o -> o = OFree \/ o = OLim.
Proof.
  intros o H. destruct (owner_eq_dec o OFree); auto. destruct (owner_eq_dec o OLim); auto.
  exfalso. apply H. split; auto.
Qed.

Lemma special_small : forall x, 0 <= x < MAXREGSECT -> special_sid x = false.
Proof. intros x H. unfold special_sid, MAXREGSECT, ENDOFCHAIN, FREESECT, DIFSECT, FATSECT in *. lia. Qed.

Lemma small_not_end : forall x, x < MAXREGSECT -> x <> ENDOFCHAIN.
Proof. unfold MAXREGSECT, ENDOFCHAIN. lia. Qed.

Lemma linked_get : forall tbl start l, linked tbl start l -> get_fat_chain tbl start = Ok l.
Proof.
  intros tbl [b|] l H; cbn in H.
  - destruct H. apply get_chain_Ok; auto.
  - subst. reflexivity.
Qed.

Lemma linked_nil : forall tbl start l, linked tbl start l -> (start = None <-> l = []).
Proof.
  intros tbl [b|] l H; cbn in H.
  - destruct H as [Hs Hc]. split; [discriminate|]. intros ->. inversion Hc; subst. discriminate.
  - tauto.
Qed.

Lemma linked_range : forall tbl start l, linked tbl start l -> forall x, In x l -> 0 <= x < zlen tbl.
Proof.
  intros tbl [b|] l H x Hx; cbn in H.
  - destruct H as [_ Hc]. apply (chain_from_range _ _ _ Hc x Hx).
  - subst. destruct Hx.
Qed.

Lemma TInv_range : forall tbl own start, TInv tbl own start -> forall o x, In x (own o) -> 0 <= x < zlen tbl.
Proof.
  intros tbl own start H o x Hx. destruct (chain_owner_dec o) as [C|C].
  - eapply linked_range; eauto. apply (ti_link _ _ _ H o C).
  - apply (ti_free _ _ _ H o x C) in Hx. apply znth_Some in Hx. auto.
Qed.

Lemma TInv_ext : forall tbl own own' start start', (forall o, own' o = own o) ->
  (forall o, chain_owner o -> start' o = start o) ->
  TInv tbl own start -> TInv tbl own' start'.
Proof.
  intros tbl own own' start start' E1 E2 [H1 H2 H3 H4 H5]. constructor; auto; intros; rewrite ?E1 in *; eauto.
  rewrite E2 by auto. auto.
Qed.

(** ** Chains under table updates *)

Lemma chain_frame : forall t t' b l, (forall x, In x l -> znth t' x = znth t x) -> chain_from t b l -> chain_from t' b l.
Proof.
  intros t t' b l H C. induction C as [|b b' l Hne Hn Hr IH].
  - constructor.
  - econstructor; eauto.
    + rewrite H; [eauto|left; auto].
    + apply IH. intros; apply H; right; auto.
Qed.

Lemma linked_frame : forall t t' s l, (forall x, In x l -> znth t' x = znth t x) -> linked t s l -> linked t' s l.
Proof. intros t t' [b|] l H L; cbn in *; auto. destruct L. split; auto. eapply chain_frame; eauto. Qed.

Lemma last_In : forall (l : list Z) d, l <> [] -> In (last l d) l.
Proof.
  induction l as [|a l IH]; intros d H; [congruence|]. destruct l as [|b l].
  - left; auto.
  - right. change (last (a :: b :: l) d) with (last (b :: l) d). apply IH. discriminate.
Qed.

Lemma chain_append : forall t t' b l i, chain_from t b l -> l <> [] -> ~ In i l -> i <> ENDOFCHAIN ->
  (forall x, In x l -> x <> last l 0 -> znth t' x = znth t x) ->
  znth t' (last l 0) = Some i -> znth t' i = Some ENDOFCHAIN ->
  chain_from t' b (l ++ [i]).
Proof.
  intros t t' b l i C. induction C as [|b b' l Hne Hn Hr IH]; intros Hl Hi Hie Hfr Hlast Hend; [congruence|].
  cbn [app]. destruct l as [|c l].
  - cbn in Hlast. econstructor; eauto. cbn. econstructor; eauto. constructor.
  - assert (ND : NoDup (b :: c :: l)) by (eapply chain_from_NoDup; econstructor; eauto).
    change (last (b :: c :: l) 0) with (last (c :: l) 0) in *.
    assert (Hbl : b <> last (c :: l) 0).
    { inversion ND; subst. intro E. apply H1. rewrite E. apply last_In. discriminate. }
    apply chain_step with b'; auto.
    + rewrite Hfr; auto. left; auto.
    + apply IH; auto.
      * discriminate.
      * intro; apply Hi; right; auto.
      * intros x Hx Hxl. apply Hfr; auto. right; auto.
Qed.

Lemma chain_cut : forall t t' b l1 l2, chain_from t b (l1 ++ l2) -> l1 <> [] ->
  (forall x, In x l1 -> x <> last l1 0 -> znth t' x = znth t x) ->
  znth t' (last l1 0) = Some ENDOFCHAIN ->
  chain_from t' b l1.
Proof.
  intros t t' b l1. revert b. induction l1 as [|a l1 IH]; intros b l2 C Hne Hfr Hlast; [congruence|].
  cbn in C. inversion C as [|b0 b' l' H1 H2 H3]; subst.
  destruct l1 as [|c l1].
  - cbn in Hlast. econstructor; eauto. constructor.
  - assert (ND : NoDup (a :: c :: l1)).
    { apply chain_from_NoDup in C. change (a :: (c :: l1) ++ l2) with ((a :: c :: l1) ++ l2) in C.
      apply NoDup_app_remove_r in C. auto. }
    change (last (a :: c :: l1) 0) with (last (c :: l1) 0) in *.
    assert (Hal : a <> last (c :: l1) 0).
    { inversion ND; subst. intro E. apply H4. rewrite E. apply last_In. discriminate. }
    apply chain_step with b'; auto.
    + rewrite Hfr; auto. left; auto.
    + apply IH with l2; auto.
      * discriminate.
      * intros x Hx Hxl. apply Hfr; auto. right; auto.
Qed.

Lemma chain_suffix : forall t b l1 y l2, chain_from t b (l1 ++ y :: l2) -> chain_from t y (y :: l2).
Proof.
  intros t b l1. revert b. induction l1 as [|a l1 IH]; intros b y l2 C.
  - inversion C; subst. auto.
  - cbn in C. inversion C; subst. eapply IH; eauto.
Qed.

Definition free_all (t : list Z) (l : list Z) : list Z := fold_left (fun t sid => zupd t sid FREESECT) l t.

Lemma zlen_free_all : forall l t, zlen (free_all t l) = zlen t.
Proof. induction l; intros t; cbn; auto. unfold free_all in IHl. rewrite IHl. apply zlen_zupd. Qed.

Lemma znth_free_all_notin : forall l t x, ~ In x l -> znth (free_all t l) x = znth t x.
Proof.
  induction l as [|a l IH]; intros t x H; cbn; auto. unfold free_all in IH. rewrite IH by (intro; apply H; right; auto).
  apply znth_zupd_other. intro; apply H; left; auto.
Qed.

Lemma znth_free_all_in : forall l t x, In x l -> 0 <= x < zlen t -> znth (free_all t l) x = Some FREESECT.
Proof.
  induction l as [|a l IH]; intros t x H Hx; [destruct H|]. cbn. change (fold_left _ l (zupd t a FREESECT)) with (free_all (zupd t a FREESECT) l).
  destruct (in_dec Z.eq_dec x l) as [Hin|Hin].
  - apply IH; auto. rewrite zlen_zupd. auto.
  - rewrite znth_free_all_notin by auto. destruct H as [->|H]; [|contradiction]. apply znth_zupd_same. auto.
Qed.

(** ** Table-level operations *)
Section Ops.
Variables (tbl : list Z) (own : owner -> list Z) (start : owner -> option Z).
Hypothesis HT : TInv tbl own start.

(** a sector leaves the free list and is in transit *)
Lemma T_pop : forall i rest, own OFree = i :: rest ->
  TInv tbl (oupd (oupd own OFree rest) OLim (i :: own OLim)) start.
Proof.
  intros i rest E. destruct HT as [H1 H2 H3 H4 H5].
  assert (Hi : In i (own OFree)) by (rewrite E; left; auto).
  assert (Hsub : forall o x, In x (oupd (oupd own OFree rest) OLim (i :: own OLim) o) ->
     (x = i /\ o = OLim) \/ (In x (own o) /\ x <> i)).
  { intros o x Hx. unfold oupd in Hx. destruct (owner_eq_dec o OLim).
    - destruct Hx as [<-|Hx]; [auto|]. subst. right. split; auto. intros ->.
      specialize (H5 _ _ _ Hx Hi). discriminate.
    - destruct (owner_eq_dec o OFree).
      + subst. right. rewrite E. split; [right; auto|]. intros ->.
        pose proof (H4 OFree) as ND. rewrite E in ND. inversion ND; contradiction.
      + right. split; auto. intros ->. specialize (H5 _ _ _ Hx Hi). contradiction. }
  constructor; auto.
  - intros o Ho. destruct Ho as [Ho1 Ho2]. rewrite !oupd_other by auto. apply H2. split; auto.
  - intros o x Ho Hx. apply Hsub in Hx. destruct Hx as [[-> ->]|[Hx _]].
    + apply (H3 OFree); auto. intros []; congruence.
    + apply (H3 o); auto.
  - intros o. unfold oupd. destruct (owner_eq_dec o OLim).
    + constructor; auto. intro Hx. specialize (H5 _ _ _ Hx Hi). discriminate.
    + destruct (owner_eq_dec o OFree); auto. specialize (H4 OFree). rewrite E in H4. inversion H4; auto.
  - intros o1 o2 x Hx1 Hx2. apply Hsub in Hx1. apply Hsub in Hx2.
    destruct Hx1 as [[E1 ->]|[Hx1 N1]]; destruct Hx2 as [[E2 ->]|[Hx2 N2]]; try congruence. eauto.
Qed.

(** a free sector is marked as an owned-by-nobody end of chain (the range-lock sector) *)
Lemma T_drop : forall i rest v, own OFree = i :: rest ->
  TInv (zupd tbl i v) (oupd own OFree rest) start.
Proof.
  intros i rest v E. destruct HT as [H1 H2 H3 H4 H5].
  assert (Hi : In i (own OFree)) by (rewrite E; left; auto).
  assert (Hsub : forall o x, In x (oupd own OFree rest o) -> In x (own o) /\ x <> i).
  { intros o x Hx. unfold oupd in Hx. destruct (owner_eq_dec o OFree).
    - subst. rewrite E. split; [right; auto|]. intros ->.
      pose proof (H4 OFree) as ND. rewrite E in ND. inversion ND; contradiction.
    - split; auto. intros ->. specialize (H5 _ _ _ Hx Hi). contradiction. }
  constructor; auto.
  - rewrite zlen_zupd. auto.
  - intros o Ho. pose proof Ho as [Ho1 Ho2]. rewrite oupd_other by auto.
    apply linked_frame with tbl; auto. intros x Hx. apply znth_zupd_other.
    intros ->. specialize (H5 _ _ _ Hx Hi). contradiction.
  - intros o x Ho Hx. apply Hsub in Hx. destruct Hx as [Hx Hne]. rewrite znth_zupd_other by auto. eapply H3; eauto.
  - intros o. unfold oupd. destruct (owner_eq_dec o OFree); auto. specialize (H4 OFree). rewrite E in H4. inversion H4; auto.
  - intros o1 o2 x Hx1 Hx2. apply Hsub in Hx1. apply Hsub in Hx2. destruct Hx1, Hx2; eauto.
Qed.

(** the table grows; some of the new entries become free *)
Lemma T_extend : forall tbl' fr, zlen tbl <= zlen tbl' <= MAXREGSECT ->
  (forall x, 0 <= x < zlen tbl -> znth tbl' x = znth tbl x) ->
  NoDup fr -> (forall x, In x fr -> zlen tbl <= x /\ znth tbl' x = Some FREESECT) ->
  TInv tbl' (oupd own OFree (own OFree ++ fr)) start.
Proof.
  intros tbl' fr HL Hag ND Hfr. pose proof (TInv_range _ _ _ HT) as HR. destruct HT as [H1 H2 H3 H4 H5].
  assert (Hsub : forall o x, In x (oupd own OFree (own OFree ++ fr) o) -> In x (own o) \/ (o = OFree /\ In x fr)).
  { intros o x Hx. unfold oupd in Hx. destruct (owner_eq_dec o OFree); auto. subst. apply in_app_or in Hx. destruct Hx; auto. }
  constructor.
  - lia.
  - intros o Ho. pose proof Ho as [Ho1 Ho2]. rewrite oupd_other by auto.
    apply linked_frame with tbl; auto. intros x Hx. apply Hag. eauto.
  - intros o x Ho Hx. apply Hsub in Hx. destruct Hx as [Hx|[-> Hx]].
    + rewrite Hag by eauto. eapply H3; eauto.
    + apply Hfr. auto.
  - intros o. unfold oupd. destruct (owner_eq_dec o OFree); auto. apply NoDup_app_iff. split; [auto|]. split; [auto|].
    intros x Hx Hx2. apply HR in Hx. apply Hfr in Hx2. lia.
  - intros o1 o2 x Hx1 Hx2. apply Hsub in Hx1. apply Hsub in Hx2.
    destruct Hx1 as [Hx1|[-> Hx1]]; destruct Hx2 as [Hx2|[-> Hx2]]; eauto.
    + apply HR in Hx1. apply Hfr in Hx2. lia.
    + apply HR in Hx2. apply Hfr in Hx1. lia.
Qed.

(** the sector in transit becomes the only sector of an empty chain *)
Lemma T_link_new : forall i o, own OLim = [i] -> chain_owner o -> own o = [] ->
  TInv (zupd tbl i ENDOFCHAIN) (oupd (oupd own OLim []) o [i]) (oupd start o (Some i)).
Proof.
  intros i o E Ho Eo. pose proof (TInv_range _ _ _ HT) as HR. destruct HT as [H1 H2 H3 H4 H5].
  assert (Hi : In i (own OLim)) by (rewrite E; left; auto).
  assert (Hir : 0 <= i < zlen tbl) by eauto.
  assert (Hsub : forall o' x, In x (oupd (oupd own OLim []) o [i] o') -> (x = i /\ o' = o) \/ (In x (own o') /\ x <> i)).
  { intros o' x Hx. unfold oupd in Hx. destruct (owner_eq_dec o' o).
    - destruct Hx as [<-|[]]. auto.
    - destruct (owner_eq_dec o' OLim); [destruct Hx|]. right. split; auto. intros ->. specialize (H5 _ _ _ Hx Hi). contradiction. }
  constructor.
  - rewrite zlen_zupd. auto.
  - intros o' Ho'. destruct (owner_eq_dec o' o) as [->|Hne].
    + rewrite !oupd_same. cbn. split; [apply special_small; lia|].
      econstructor; [apply small_not_end; lia|apply znth_zupd_same; auto|constructor].
    + rewrite (oupd_other _ start) by auto. rewrite (oupd_other _ (oupd own OLim [])) by auto.
      destruct Ho' as [Ho1 Ho2]. rewrite oupd_other by auto.
      apply linked_frame with tbl; [|apply H2; split; auto]. intros x Hx. apply znth_zupd_other.
      intros ->. specialize (H5 _ _ _ Hx Hi). contradiction.
  - intros o' x Hc Hx. apply Hsub in Hx. destruct Hx as [[-> ->]|[Hx Hne]]; [contradiction|].
    rewrite znth_zupd_other by auto. eapply H3; eauto.
  - intros o'. unfold oupd. destruct (owner_eq_dec o' o); [constructor; [intros []|constructor]|].
    destruct (owner_eq_dec o' OLim); auto. constructor.
  - intros o1 o2 x Hx1 Hx2. apply Hsub in Hx1. apply Hsub in Hx2.
    destruct Hx1 as [[E1 ->]|[Hx1 N1]]; destruct Hx2 as [[E2 ->]|[Hx2 N2]]; try congruence. eauto.
Qed.

(** the sector in transit is appended to a non-empty chain *)
Lemma T_link_app : forall i o, own OLim = [i] -> chain_owner o -> own o <> [] ->
  TInv (zupd (zupd tbl (last (own o) 0) i) i ENDOFCHAIN) (oupd (oupd own OLim []) o (own o ++ [i])) start.
Proof.
  intros i o E Ho Eo. pose proof (TInv_range _ _ _ HT) as HR. destruct HT as [H1 H2 H3 H4 H5].
  assert (Hi : In i (own OLim)) by (rewrite E; left; auto).
  assert (Hir : 0 <= i < zlen tbl) by eauto.
  assert (Hlast : In (last (own o) 0) (own o)) by (apply last_In; auto).
  assert (Hio : ~ In i (own o)).
  { intro Hx. specialize (H5 _ _ _ Hx Hi). destruct Ho. congruence. }
  assert (Hsub : forall o' x, In x (oupd (oupd own OLim []) o (own o ++ [i]) o') -> (x = i /\ o' = o) \/ (In x (own o') /\ x <> i)).
  { intros o' x Hx. unfold oupd in Hx. destruct (owner_eq_dec o' o).
    - apply in_app_or in Hx. destruct Hx as [Hx|[<-|[]]]; auto. subst. right. split; auto. intros ->. contradiction.
    - destruct (owner_eq_dec o' OLim); [destruct Hx|]. right. split; auto. intros ->. specialize (H5 _ _ _ Hx Hi). contradiction. }
  assert (Hoth : forall x, x <> i -> x <> last (own o) 0 -> znth (zupd (zupd tbl (last (own o) 0) i) i ENDOFCHAIN) x = znth tbl x).
  { intros x N1 N2. rewrite znth_zupd_other by auto. apply znth_zupd_other. auto. }
  constructor.
  - rewrite !zlen_zupd. auto.
  - intros o' Ho'. destruct (owner_eq_dec o' o) as [->|Hne].
    + rewrite oupd_same. pose proof (H2 o Ho) as HL. destruct (start o) as [b|]; cbn in *; [|congruence].
      destruct HL as [Hs Hc]. split; auto. apply chain_append with tbl; auto.
      * apply small_not_end. lia.
      * intros x Hx Hxl. apply Hoth; auto. intros ->. contradiction.
      * rewrite znth_zupd_other by (intros ->; contradiction). apply znth_zupd_same. eauto.
      * apply znth_zupd_same. rewrite zlen_zupd. auto.
    + rewrite (oupd_other _ (oupd own OLim [])) by auto.
      destruct Ho' as [Ho1 Ho2]. rewrite oupd_other by auto.
      apply linked_frame with tbl; [|apply H2; split; auto]. intros x Hx. apply Hoth.
      * intros ->. specialize (H5 _ _ _ Hx Hi). contradiction.
      * intros ->. specialize (H5 _ _ _ Hx Hlast). contradiction.
  - intros o' x Hc Hx. apply Hsub in Hx. destruct Hx as [[-> ->]|[Hx Hne]]; [contradiction|].
    rewrite Hoth; auto; [eapply H3; eauto|]. intros ->. specialize (H5 _ _ _ Hx Hlast). subst. contradiction.
  - intros o'. unfold oupd. destruct (owner_eq_dec o' o).
    + subst. apply NoDup_app_iff. split; [auto|]. split; [constructor; [intros []|constructor]|].
      intros x Hx [<-|[]]. contradiction.
    + destruct (owner_eq_dec o' OLim); auto. constructor.
  - intros o1 o2 x Hx1 Hx2. apply Hsub in Hx1. apply Hsub in Hx2.
    destruct Hx1 as [[E1 ->]|[Hx1 N1]]; destruct Hx2 as [[E2 ->]|[Hx2 N2]]; try congruence. eauto.
Qed.

(** the tail of a chain is freed; the chain is cut (or disappears when nothing is left) *)
Lemma T_free_tail : forall o l1 l2, chain_owner o -> own o = l1 ++ l2 ->
  TInv (match l1 with [] => free_all tbl l2 | _ => zupd (free_all tbl l2) (last l1 0) ENDOFCHAIN end)
       (oupd (oupd own OFree (rev l2 ++ own OFree)) o l1)
       (oupd start o (match l1 with [] => None | _ => start o end)).
Proof.
  intros o l1 l2 Ho Eo. pose proof (TInv_range _ _ _ HT) as HR. destruct HT as [H1 H2 H3 H4 H5].
  assert (NDo : NoDup (l1 ++ l2)) by (rewrite <- Eo; auto).
  assert (ND12 : forall x, In x l1 -> In x l2 -> False) by (apply NoDup_app_iff in NDo; apply NDo).
  set (tbl' := match l1 with [] => free_all tbl l2 | _ => zupd (free_all tbl l2) (last l1 0) ENDOFCHAIN end).
  assert (Hlen : zlen tbl' = zlen tbl).
  { unfold tbl'. destruct l1; rewrite ?zlen_zupd; apply zlen_free_all. }
  assert (Hsub : forall o' x, In x (oupd (oupd own OFree (rev l2 ++ own OFree)) o l1 o') ->
    (In x l2 /\ o' = OFree) \/ (In x (own o') /\ ~ In x l2)).
  { intros o' x Hx. unfold oupd in Hx. destruct (owner_eq_dec o' o).
    - subst o'. right. rewrite Eo. split; [apply in_or_app; auto|]. intro; eauto.
    - destruct (owner_eq_dec o' OFree).
      + subst. apply in_app_or in Hx. destruct Hx as [Hx|Hx].
        * apply in_rev in Hx. auto.
        * right. split; auto. intro Hx2. assert (In x (own o)) by (rewrite Eo; apply in_or_app; auto).
          specialize (H5 _ _ _ Hx H). congruence.
      + right. split; auto. intro Hx2. assert (In x (own o)) by (rewrite Eo; apply in_or_app; auto).
        specialize (H5 _ _ _ Hx H). congruence. }
  assert (Hoth : forall x, ~ In x l2 -> (l1 <> [] -> x <> last l1 0) -> znth tbl' x = znth tbl x).
  { intros x N1 N2. unfold tbl'. destruct l1 as [|a l1].
    - apply znth_free_all_notin; auto.
    - rewrite znth_zupd_other by (apply not_eq_sym; apply N2; discriminate). apply znth_free_all_notin; auto. }
  constructor.
  - lia.
  - intros o' Ho'. destruct (owner_eq_dec o' o) as [->|Hne].
    + rewrite !oupd_same. destruct l1 as [|a l1']; [reflexivity|].
      pose proof (H2 o Ho) as HL. rewrite Eo in HL. destruct (start o) as [b|]; cbn in HL |- *; [|discriminate].
      destruct HL as [Hs Hc]. split; auto. apply chain_cut with tbl l2; auto.
      * discriminate.
      * intros x Hx Hxl. apply Hoth; auto. intro; eauto.
      * unfold tbl'. apply znth_zupd_same. rewrite zlen_free_all. apply (HR o). rewrite Eo. apply in_or_app. left.
        apply last_In. discriminate.
    + rewrite !(oupd_other _ _ o) by auto. destruct Ho' as [Ho1 Ho2]. rewrite oupd_other by auto.
      apply linked_frame with tbl; [|apply H2; split; auto]. intros x Hx. apply Hoth.
      * intro Hx2. assert (In x (own o)) by (rewrite Eo; apply in_or_app; auto). specialize (H5 _ _ _ Hx H). congruence.
      * intros Hl1 ->. assert (In (last l1 0) (own o)) by (rewrite Eo; apply in_or_app; left; apply last_In; auto).
        specialize (H5 _ _ _ Hx H). congruence.
  - intros o' x Hc Hx. apply Hsub in Hx. destruct Hx as [[Hx ->]|[Hx Hne]].
    + assert (In x (own o)) by (rewrite Eo; apply in_or_app; auto).
      assert (znth (free_all tbl l2) x = Some FREESECT) by (apply znth_free_all_in; eauto).
      unfold tbl'. destruct l1 as [|a l1']; auto. rewrite znth_zupd_other; auto.
      intros E. apply (ND12 x); auto. rewrite <- E. apply last_In. discriminate.
    + rewrite Hoth; auto; [eapply H3; eauto|]. intros Hl1 ->.
      assert (In (last l1 0) (own o)) by (rewrite Eo; apply in_or_app; left; apply last_In; auto).
      specialize (H5 _ _ _ Hx H). subst o'. contradiction.
  - intros o'. unfold oupd. destruct (owner_eq_dec o' o).
    + apply NoDup_app_remove_r in NDo. auto.
    + destruct (owner_eq_dec o' OFree); auto. apply NoDup_app_iff. split; [|split; auto].
      * apply NoDup_rev. apply NoDup_app_remove_l in NDo. auto.
      * intros x Hx Hx2. apply in_rev in Hx. assert (In x (own o)) by (rewrite Eo; apply in_or_app; auto).
        specialize (H5 _ _ _ Hx2 H). destruct Ho. congruence.
  - intros o1 o2 x Hx1 Hx2. apply Hsub in Hx1. apply Hsub in Hx2.
    destruct Hx1 as [[E1 ->]|[Hx1 N1]]; destruct Hx2 as [[E2 ->]|[Hx2 N2]]; try congruence; try contradiction. eauto.
Qed.
End Ops.
