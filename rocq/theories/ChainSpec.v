(** Specification vocabulary for sector chains, independent of how the code follows them. *)
From Verif Require Import Base CfbModel.
From Coq Require Import ZArith List.
Import ListNotations.
Open Scope Z_scope.

(** [chain_from tbl b l]: starting at [b], the table leads through exactly the sectors [l] to the
    end-of-chain mark *)
Inductive chain_from (tbl : list Z) : Z -> list Z -> Prop :=
| chain_end : chain_from tbl ENDOFCHAIN []
| chain_step : forall b b' l, b <> ENDOFCHAIN -> znth tbl b = Some b' ->
    chain_from tbl b' l -> chain_from tbl b (b :: l).

(** the sector reached after [n] successor steps, if every step starts inside the table at a
    sector that is not the end mark *)
Fixpoint follow (tbl : list Z) (n : nat) (b : Z) : option Z :=
  match n with
  | O => Some b
  | S n' => if b =? ENDOFCHAIN then None
            else match znth tbl b with Some b' => follow tbl n' b' | None => None end
  end.

Definition chain_loops (tbl : list Z) (b : Z) : Prop :=
  forall n, exists x, follow tbl n b = Some x /\ x <> ENDOFCHAIN.
Definition chain_leaves (tbl : list Z) (b : Z) : Prop :=
  exists n x, follow tbl n b = Some x /\ x <> ENDOFCHAIN /\ znth tbl x = None.

(** the marks at which get_fat_chain returns the empty list at once *)
Definition special_sid (b : Z) : bool :=
  (b =? ENDOFCHAIN) || (b =? FREESECT) || (b =? DIFSECT) || (b =? FATSECT).
