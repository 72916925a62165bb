(** What a sibling tree is, said about the entries' links and names only; this file uses nothing of
    the model but the record of an entry. *)
From Verif Require Import Base RBModel.
From Coq Require Import ZArith List Bool Sorting.Permutation Sorting.Sorted.
Import ListNotations.
Open Scope Z_scope.

(** the entries reachable from a link, from left to right *)
Inductive Sib (st : store) : option Z -> list Z -> Prop :=
| Sib_none : Sib st None []
| Sib_some : forall i l r, Sib st (d_left (st i)) l -> Sib st (d_right (st i)) r -> Sib st (Some i) (l ++ i :: r).

(** a red-black tree with root colour and number of black entries on every path *)
Inductive RB (st : store) : option Z -> bool -> nat -> Prop :=
| RB_none : RB st None false 0
| RB_red : forall i n, d_red (st i) = true -> RB st (d_left (st i)) false n -> RB st (d_right (st i)) false n -> RB st (Some i) true n
| RB_black : forall i a b n, d_red (st i) = false -> RB st (d_left (st i)) a n -> RB st (d_right (st i)) b n -> RB st (Some i) false (S n).

(** no red entry below a red one; nothing about black counts *)
Inductive NoRedRed (st : store) : option Z -> bool -> Prop :=
| NR_none : NoRedRed st None false
| NR_red : forall i, d_red (st i) = true -> NoRedRed st (d_left (st i)) false -> NoRedRed st (d_right (st i)) false -> NoRedRed st (Some i) true
| NR_black : forall i a b, d_red (st i) = false -> NoRedRed st (d_left (st i)) a -> NoRedRed st (d_right (st i)) b -> NoRedRed st (Some i) false.

(** code point order of strings *)
Definition str_before (a b : list Z) : Prop :=
  exists p, (exists y b', a = p /\ b = p ++ y :: b') \/ (exists x a' y b', a = p ++ x :: a' /\ b = p ++ y :: b' /\ x < y).
(** the order of the format: shorter names first, then by the upper case names *)
Definition before (upper : list Z -> list Z) (a b : list Z) : Prop :=
  (List.length a < List.length b)%nat \/ (List.length a = List.length b /\ str_before (upper a) (upper b)).
(** the format's notion of equal names *)
Definition alike (upper : list Z -> list Z) (a b : list Z) : Prop := List.length a = List.length b /\ upper a = upper b.
Definition in_order (upper : list Z -> list Z) (st : store) (l : list Z) : Prop :=
  StronglySorted (fun i j => before upper (d_name (st i)) (d_name (st j))) l.

(** the storage [self] of [st] has exactly the children [l], all entries of the directory *)
Record has_children (st : store) (self : Z) (l : list Z) : Prop := {
  hc_sib : Sib st (d_child (st self)) l; hc_once : NoDup l; hc_self : ~ In self l; hc_pos : 0 <= self; hc_ids : forall i, In i l -> 0 <= i }.
