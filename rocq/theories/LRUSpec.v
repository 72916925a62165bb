(** Specification vocabulary for C15 over histories of cache operations (cache.py). *)
From Verif Require Import LRUModel.
From Coq Require Import List Bool.
Import ListNotations.

(** ** Independent specification over histories *)
Section Spec.
Variables K V : Type.
Variable keqb : K -> K -> bool.

(** value the most recent assignment gave to [k] in a history (latest operation last), if it
    was not deleted since *)
Definition last_set (h : list (op K V)) (k : K) : option V :=
  fold_left (fun acc o =>
    match o with
    | OSet _ _ k' v => if keqb k' k then Some v else acc
    | ODel _ _ k' => if keqb k' k then None else acc
    | _ => acc
    end) h None.

(** keys an operation may bring to the front *)
Definition touched (o : op K V) : list K :=
  match o with OSet _ _ k _ => [k] | OGet _ _ k => [k] | _ => [] end.

Definition no_delete_of (k : K) (h : list (op K V)) : Prop :=
  Forall (fun o => match o with ODel _ _ k' => k' <> k | _ => True end) h.
Definition no_set_of (k : K) (h : list (op K V)) : Prop :=
  Forall (fun o => match o with OSet _ _ k' _ => k' <> k | _ => True end) h.
End Spec.

