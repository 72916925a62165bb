(** A newly created file (cfb.py:1185-1237) satisfies the invariant. *)
From Verif Require Import Base BaseFacts LRUModel CfbModel ChainSpec ChainProofs TableInv DifatInv CfbInv CfbBytes CfbStream StreamSpec StreamRun.
From Coq Require Import ZArith List Bool Lia.
Import ListNotations.
Open Scope Z_scope.

Definition fresh (sector : Z) (cap : nat) (f : list Z) : drv := mkd (setup_empty sector cap f) (fun _ => None) [].
Definition blank : astate := mka [] (fun _ => []) (fun _ => None).

Lemma setup_fat : forall n x, 128 <= n -> znth (ENDOFCHAIN :: FATSECT :: repeat FREESECT (Z.to_nat n - 2)) x =
  if x =? 0 then Some ENDOFCHAIN else if x =? 1 then Some FATSECT else if (0 <=? x) && (x <? n) then Some FREESECT else None.
Proof.
  intros n x Hn. change (ENDOFCHAIN :: FATSECT :: repeat FREESECT (Z.to_nat n - 2)) with ([ENDOFCHAIN; FATSECT] ++ repeat FREESECT (Z.to_nat n - 2)).
  destruct (x =? 0) eqn:E0; [assert (x = 0) by lia; subst; rewrite znth_app1 by (change (zlen [ENDOFCHAIN; FATSECT]) with 2; lia); reflexivity|].
  destruct (x =? 1) eqn:E1; [assert (x = 1) by lia; subst; rewrite znth_app1 by (change (zlen [ENDOFCHAIN; FATSECT]) with 2; lia); reflexivity|].
  destruct (Z.lt_ge_cases x 2).
  - rewrite znth_app1 by (change (zlen [ENDOFCHAIN; FATSECT]) with 2; lia). replace ((0 <=? x) && (x <? n)) with false by lia.
    destruct (znth [ENDOFCHAIN; FATSECT] x) eqn:E; auto. apply znth_Some in E. change (zlen [ENDOFCHAIN; FATSECT]) with 2 in E. lia.
  - rewrite znth_app2 by (change (zlen [ENDOFCHAIN; FATSECT]) with 2; lia). change (zlen [ENDOFCHAIN; FATSECT]) with 2.
    rewrite znth_repeat. destruct ((0 <=? x) && (x <? n)) eqn:E.
    + match goal with |- (if ?c then _ else _) = _ => replace c with true by lia end. auto.
    + match goal with |- (if ?c then _ else _) = _ => replace c with false by lia end. auto.
Qed.

Lemma setup_Inv : forall sector cap f, sector = 512 \/ sector = 4096 -> Inv (setup_empty sector cap f) (fun _ => []) 0.
Proof.
  intros sector cap f Hsec. set (s := setup_empty sector cap f).
  assert (Hn : exists n, sector = n * 4 /\ 128 <= n <= 1024 /\ sector mod 64 = 0 /\ sector / 4 = n).
  { destruct Hsec as [-> | ->]; [exists 128|exists 1024]; repeat split; reflexivity || lia. }
  destruct Hn as (n & En & Hn & Hm & Ed).
  assert (Efat : fat s = ENDOFCHAIN :: FATSECT :: repeat FREESECT (Z.to_nat n - 2)) by (unfold s, setup_empty; cbn [fat]; rewrite Ed; reflexivity).
  assert (Eff : ffree s = zseq 2 (n - 2)) by (unfold s, setup_empty; cbn [ffree]; rewrite Ed; reflexivity).
  assert (Hlen : zlen (fat s) = n). { rewrite Efat. unfold zlen. cbn [length]. rewrite repeat_length. lia. }
  assert (Hf : forall x, znth (fat s) x = if x =? 0 then Some ENDOFCHAIN else if x =? 1 then Some FATSECT else if (0 <=? x) && (x <? n) then Some FREESECT else None)
    by (intros; rewrite Efat; apply setup_fat; lia).
  assert (Ho : forall o, fowned s (fun _ => []) [] o = match o with OFree => zseq 2 (n - 2) | ODir => [0] | _ => [] end).
  { intros []; cbn [fowned]; auto. destruct (reg s e); auto. }
  assert (Hs : forall o, fstart s o = match o with ODir => Some 0 | _ => None end).
  { intros []; cbn; auto. unfold reg, s. cbn. rewrite andb_false_r. reflexivity. }
  assert (Hmo : forall o, mowned s (fun _ => []) [] o = []).
  { intros []; cbn; auto. destruct (mini s e); auto. }
  assert (Hms : forall o, mstart s o = None) by (intros []; cbn; auto; destruct (mini s e); auto).
  assert (H0 : Inv0 s (fun _ => []) [] [] 0).
  { constructor.
    - cbn. lia.
    - cbn. lia.
    - exact Hm.
    - constructor.
      + rewrite Hlen. unfold MAXREGSECT. lia.
      + intros o Hc. rewrite Ho, Hs. destruct o; try reflexivity; try (destruct Hc; congruence).
        cbn. split; [reflexivity|]. econstructor; [unfold ENDOFCHAIN; lia| |apply chain_end]. rewrite Hf. reflexivity.
      + intros o x Hc Hx. rewrite Ho in Hx. apply not_chain_owner in Hc. destruct Hc as [-> | ->]; [|destruct Hx].
        apply In_zseq in Hx. rewrite Hf. replace (x =? 0) with false by lia. replace (x =? 1) with false by lia. replace ((0 <=? x) && (x <? n)) with true by lia. auto.
      + intros o. rewrite Ho. destruct o; try constructor; auto using NoDup_zseq; constructor.
      + intros o1 o2 x. rewrite !Ho. destruct o1, o2; cbn; auto; try tauto; intros A B.
        * apply In_zseq in A. destruct B; [lia|tauto].
        * apply In_zseq in B. destruct A; [lia|tauto].
    - constructor.
      + cbn. unfold MAXREGSECT, zlen. cbn. lia.
      + intros o Hc. rewrite Hmo, Hms. reflexivity.
      + intros o x Hc Hx. rewrite Hmo in Hx. destruct Hx.
      + intros o. rewrite Hmo. constructor.
      + intros o1 o2 x Hx. rewrite Hmo in Hx. destruct Hx.
    - intros x v Hv. rewrite Hf in Hv. destruct (x =? 0) eqn:E0.
      { left. exists ODir. rewrite Ho. left. lia. }
      destruct (x =? 1) eqn:E1. { right. left. congruence. }
      destruct ((0 <=? x) && (x <? n)) eqn:E2; [|discriminate]. left. exists OFree. rewrite Ho. apply In_zseq. lia.
    - intros x v Hv. apply znth_Some in Hv. cbn in Hv. unfold zlen in Hv. cbn in Hv. lia.
    - exists (1 :: repeat FREESECT 108), [], [1], 108%nat. split; [reflexivity|]. split; [reflexivity|]. split; [constructor|].
      split; [reflexivity|]. split; [reflexivity|]. split; [repeat constructor; intros []|].
      split. { intros x. rewrite Hf. split.
        - intros [<-|[]]. reflexivity.
        - intros E. destruct (x =? 0) eqn:E0; [discriminate|]. destruct (x =? 1) eqn:E1; [left; lia|].
          destruct ((0 <=? x) && (x <? n)); discriminate. }
      split; [reflexivity|]. split. { rewrite Hlen. change (zlen [1]) with 1. unfold s; cbn [ss setup_empty]. lia. }
      split; [constructor|]. intros x. rewrite Hf. split; [intros []|]. intros E.
      destruct (x =? 0); [discriminate|]. destruct (x =? 1); [discriminate|]. destruct ((0 <=? x) && (x <? n)); discriminate.
    - intros E o Hfree Hx. rewrite Ho in Hx. destruct o; try destruct Hx; try congruence.
      + unfold RANGELOCKSECT in H. cbn in H. discriminate.
      + destruct H.
    - exists []. cbn. split; [reflexivity|]. split; [unfold zlen; cbn; lia|]. split; [intros x []|].
      intros o x _ Hx. change (In x (mowned s (fun _ => []) [] o)) in Hx. rewrite Hmo in Hx. destruct Hx.
    - intros k d [].
    - cbn. discriminate.
    - reflexivity. }
  split; [split; [exact H0|]|].
  - unfold cover. cbn. lia.
  - intros e He. unfold cap_of. change (zlen (@nil Z)) with 0. pose proof (sec_pos _ _ _ _ _ (kind s e) H0). cbn [ents s setup_empty e_size]. lia.
Qed.

Lemma fresh_R : forall sector cap f, sector = 512 \/ sector = 4096 -> R blank (fresh sector cap f).
Proof.
  intros sector cap f Hsec. split; auto. exists (fun _ => []), 0. cbn [d_cfb d_live d_hs fresh]. split; [apply setup_Inv; auto|].
  split; [|split].
  - split; [cbn; lia|]. split; [cbn; destruct Hsec as [-> | ->]; reflexivity|]. split; [cbn; repeat constructor; intros []|]. split.
    + cbn. intros i [<-|[]]. destruct Hsec as [-> | ->]; cbn; lia.
    + intros i _. reflexivity.
  - intros e He. reflexivity.
  - intros e. reflexivity.
Qed.
