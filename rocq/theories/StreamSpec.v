(** What a compound file is supposed to be for its streams: a family of byte arrays with one
    read/write position each. Nothing here mentions sectors, tables or chains. *)
From Verif Require Import Base.
From Coq Require Import ZArith List Bool Lia.
Import ListNotations.
Open Scope Z_scope.

Inductive seek_from := FromStart | FromHere | FromEnd.

Inductive op : Type :=
| ONew                          (* a new, empty stream *)
| ORemove (e : Z)
| OOpen (e : Z)                 (* open for reading/writing at 0 *)
| OReset (e : Z)                (* open for writing: content dropped *)
| ORead (e n : Z)               (* n = -1: the rest *)
| OWrite (e : Z) (d : list Z)
| OSeek (e off : Z) (w : seek_from)
| OTrunc (e : Z) (n : option Z).

Inductive obs : Type := VUnit | VId (i : Z) | VBytes (d : list Z) | VPos (p : Z) | VErr (x : err) | VIllegal.

Record astate : Type := mka { a_live : list Z; a_data : Z -> list Z; a_pos : Z -> option Z }.

Definition put {A} (f : Z -> A) (e : Z) (v : A) : Z -> A := fun j => if j =? e then v else f j.
Definition a_set (a : astate) (e : Z) (c : list Z) (p : Z) : astate := mka (a_live a) (put (a_data a) e c) (put (a_pos a) e (Some p)).

(** programs only touch streams that exist, through an open handle, and truncate to sizes >= 0 *)
Definition live_b (a : astate) (e : Z) : bool := existsb (Z.eqb e) (a_live a).
Definition legal (a : astate) (o : op) : bool :=
  match o with
  | ONew => true
  | ORemove e | OOpen e | OReset e => live_b a e
  | ORead e _ | OWrite e _ | OSeek e _ _ => match a_pos a e with Some _ => true | None => false end
  | OTrunc e n => match a_pos a e with Some _ => match n with Some k => 0 <=? k | None => true end | None => false end
  end.

Definition same (a a' : astate) : Prop :=
  a_live a' = a_live a /\ (forall j, a_data a' j = a_data a j) /\ (forall j, a_pos a' j = a_pos a j).

Inductive astep (a : astate) : op -> obs -> astate -> Prop :=
| A_illegal : forall o, legal a o = false -> astep a o VIllegal a
| A_new : forall i, ~ In i (0 :: a_live a) ->
    astep a ONew (VId i) (mka (i :: a_live a) (put (a_data a) i []) (put (a_pos a) i None))
| A_remove : forall e, legal a (ORemove e) = true ->
    astep a (ORemove e) VUnit (mka (remove Z.eq_dec e (a_live a)) (put (a_data a) e []) (put (a_pos a) e None))
| A_open : forall e, legal a (OOpen e) = true -> astep a (OOpen e) VUnit (a_set a e (a_data a e) 0)
| A_reset : forall e, legal a (OReset e) = true -> astep a (OReset e) VUnit (a_set a e [] 0)
| A_read : forall e n p d, a_pos a e = Some p ->
    d = (if n =? -1 then zdrop p (a_data a e) else ztake (Z.max 0 n) (zdrop p (a_data a e))) ->
    astep a (ORead e n) (VBytes d) (a_set a e (a_data a e) (p + zlen d))
| A_write : forall e d p, a_pos a e = Some p ->
    astep a (OWrite e d) VUnit (a_set a e (ztake p (a_data a e) ++ d ++ zdrop (p + zlen d) (a_data a e)) (p + zlen d))
| A_seek : forall e off w p t, a_pos a e = Some p ->
    t = match w with FromStart => off | FromHere => p + off | FromEnd => zlen (a_data a e) + off end -> 0 <= t ->
    astep a (OSeek e off w) (VPos t) (a_set a e (a_data a e ++ zeros (t - zlen (a_data a e))) t)
| A_seek_err : forall e off w p t, a_pos a e = Some p ->
    t = match w with FromStart => off | FromHere => p + off | FromEnd => zlen (a_data a e) + off end -> t < 0 ->
    astep a (OSeek e off w) (VErr ValueError) a
| A_trunc : forall e n p k c, a_pos a e = Some p -> legal a (OTrunc e n) = true ->
    k = match n with Some x => x | None => p end ->
    zlen c = k -> ztake (zlen (a_data a e)) c = ztake k (a_data a e) ->
    (* when k is larger than the stream the bytes that appear are not specified here (C04) *)
    astep a (OTrunc e n) VUnit (a_set a e c (Z.min p k)).

Inductive asteps : astate -> list op -> list obs -> astate -> Prop :=
| AS_nil : forall a, asteps a [] [] a
| AS_cons : forall a o v a1 ops vs a2, astep a o v a1 -> asteps a1 ops vs a2 -> asteps a (o :: ops) (v :: vs) a2.

(** the stream an operation is about *)
Definition target (o : op) : option Z :=
  match o with
  | ONew => None
  | ORemove e | OOpen e | OReset e | ORead e _ | OWrite e _ | OSeek e _ _ | OTrunc e _ => Some e
  end.

Lemma live_b_In : forall a e, live_b a e = true <-> In e (a_live a).
Proof.
  intros. unfold live_b. rewrite existsb_exists. split.
  - intros (x & Hx & E). apply Z.eqb_eq in E. subst. auto.
  - intros H. exists e. split; auto. apply Z.eqb_refl.
Qed.

(** sanity of the specification: an operation only affects its own stream *)
Lemma astep_isolated : forall a o v a' j, astep a o v a' -> target o <> Some j -> In j (a_live a) -> a_data a' j = a_data a j /\ In j (a_live a').
Proof.
  intros a o v a' j H T L. inversion H; subst; cbn in *; unfold put; auto;
  try (destruct (j =? e) eqn:E; [assert (j = e) by lia; congruence|auto]).
  - destruct (j =? i) eqn:E; [assert (j = i) by lia; subst; exfalso; tauto|auto].
  - split; auto. apply in_in_remove; auto. lia.
Qed.
