(** Histories over a set of names no two of which differ only by case are legal. *)
From Coq Require Import ZArith List Bool Lia.
Import ListNotations.
From Verif Require Import Base BaseFacts LRUModel RBModel RBSpec NsModel NsSpec NsSteps NsMove NsRun.
Open Scope Z_scope.
Notation length := List.length.

Section Legal.
Variable upper : list Z -> list Z.
Variable cap : nat.
Variable N : name -> Prop.
Definition separated : Prop := forall x y, N x -> N y -> alike upper x y -> x = y.
(** all names in use are from the set *)
Definition names_in (m : pmap) : Prop := forall p, m p <> None -> Forall N p.
Definition op_ok (o : op) : Prop :=
  match o with
  | OFind p | OExists p | OList p | ORemove p => clean p
  | OCreate p k => clean p /\ Forall N p /\ (k = 1 \/ k = 2)
  | OMove src dst => clean src /\ clean dst /\ Forall N (target src dst) /\ (below src (target src dst) -> src = [] \/ target src dst = src) /\
      check_name (last (target src dst) []) = Ok tt /\ (length (target src dst) <= cap)%nat
  | ORmtree p => clean p /\ p <> []
  | OMakedirs p => clean p /\ Forall N p
  | OTouch p n => clean (p ++ [n]) /\ Forall N (p ++ [n]) /\ ~ In ROOT_NAME p
  end.

Lemma same_names : forall m m', same_map m m' -> names_in m -> names_in m'.
Proof. intros m m' S H p Hp. apply H. rewrite <- (S p). auto. Qed.
Lemma creates_names : forall m p k o m', creates check_name m p k o m' -> Forall N p -> names_in m -> names_in m'.
Proof.
  intros m p k o m' C Hp H. destruct C; try (eapply same_names; eauto; fail). intros x Hx. match goal with A : added_at _ _ _ _ _ |- _ => destruct A as [A1 A2] end.
  destruct (list_eq_dec (list_eq_dec Z.eq_dec) x p) as [->|E]; auto. apply H. rewrite <- A2; auto.
Qed.
Lemma makes_names : forall m a b r m', makes check_name m a b r m' -> Forall N (a ++ b) -> names_in m -> names_in m'.
Proof.
  intros m a b r m' K. induction K; intros F Hm.
  - eapply same_names; eauto.
  - apply IHK; auto. rewrite <- app_assoc. auto.
  - eapply same_names; eauto.
  - apply IHK; [rewrite <- app_assoc; auto|]. eapply creates_names; eauto. rewrite Forall_app in *. destruct F as [F1 F2]. split; auto. inversion F2; auto.
  - eapply creates_names; eauto. rewrite Forall_app in *. destruct F as [F1 F2]. split; auto. inversion F2; auto.
Qed.
Lemma cut_names : forall m p m', cut_at m p m' -> names_in m -> names_in m'.
Proof. intros m p m' [C1 C2] H x Hx. destruct (below_dec p x) as [(r & ->)|B]; [exfalso; apply Hx; apply C1|]. apply H. rewrite <- C2; auto. Qed.
Lemma step_names : forall m o v m', spec_step check_name m o v m' -> op_ok o -> names_in m -> names_in m'.
Proof.
  intros m o v m' S G Hm. destruct S; cbn [op_ok] in G; try (eapply same_names; eauto; fail).
  - eapply creates_names; eauto. tauto.
  - eapply cut_names; eauto.
  - eapply makes_names; eauto. tauto.
  - eapply makes_names; eauto. tauto.
  - eapply cut_names; eauto.
  - eapply creates_names; eauto. tauto.
  - destruct G as (_ & _ & F & _). change (d1 = target src dst) in H1. rewrite <- H1 in F. match goal with M : moved _ _ _ _ |- _ => destruct M as (M1 & M2 & M3) end.
    intros x Hx. destruct (below_dec d1 x) as [(r & ->)|B].
    + rewrite M1 in Hx. apply Hm in Hx. rewrite Forall_app in *. tauto.
    + destruct (below_dec src x) as [B'|B']; [exfalso; apply Hx; auto|]. apply Hm. rewrite <- M3; auto.
Qed.
Lemma op_legal : forall m o, separated -> op_ok o -> names_in m -> legal upper cap m o.
Proof.
  intros m o Sp G Hm.
  assert (CO : forall p, Forall N p -> case_ok upper m p).
  { intros p F q n x -> Hx A. apply Hm in Hx. rewrite Forall_app in *. destruct Hx as [_ Hx], F as [_ F]. inversion Hx; inversion F; subst. auto. }
  destruct o; cbn [op_ok legal] in *; try tauto.
  - destruct G as (A & B & C). auto.
  - destruct G as (A & B & C & D & E & F). constructor; auto. intros x Hx Q. left. apply Hm in Hx. apply Forall_app in Hx as [_ Hx]. inversion Hx; subst.
    rewrite (snoc_parts (target src dst)) in C; [|unfold target; destruct dst; discriminate]. apply Forall_app in C as [_ C]. inversion C; subst. auto.
  - destruct G as [A B]. split; auto. intros q n r x -> Hx Q. cbn [app] in Hx. apply Hm in Hx. apply Forall_app in Hx as [_ Hx]. inversion Hx; subst. apply Forall_app in B as [_ B]. inversion B; subst. auto.
  - destruct G as (A & B & C). auto.
Qed.
Lemma ops_legal : forall ops m, separated -> Forall op_ok ops -> names_in m -> legal_run upper cap m ops.
Proof.
  induction ops as [|o ops IH]; intros m Sp F Hm; cbn; auto. inversion F; subst. split; [apply op_legal; auto|]. intros v m' S. apply IH; auto. eapply step_names; eauto.
Qed.
End Legal.
