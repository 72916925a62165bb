(** Common vocabulary of the model: Python values and exceptions as Gallina values.
    Nothing in this file models a particular function of /repo; it fixes the encoding of
    Python integers (Z), byte strings (list Z), sequences indexed by integers and exceptions. *)
From Coq Require Import ZArith List Bool Lia.
From Coq Require Import ZifyBool ZifyNat ZifyN.
Import ListNotations.
Open Scope Z_scope.
Ltac Zify.zify_post_hook ::= Z.div_mod_to_equations.

(** Exceptions the modelled code can raise. *)
Inductive err : Type :=
| ValueError | IndexError | KeyError | AssertionError | TypeError | StructError
| CompoundError            (* CompoundFileBinaryError *)
| AttachError | PropertyError | NotImplemented | UnicodeError | NameError
| ZeroDivision | Overflow | EOFErr | GenericError
| OutOfFuel.               (* artefact of the model, excluded by the theorems *)

(** How a call ends: with a value or an exception (no counterpart in the code) *)
Inductive result (A : Type) : Type :=
| Ok (a : A)
| Err (e : err).
Arguments Ok {A} a.
Arguments Err {A} e.

(** One statement after another; an exception ends the body (no counterpart in the code) *)
Definition bind {A B} (r : result A) (f : A -> result B) : result B :=
  match r with Ok a => f a | Err e => Err e end.

Notation "'do' x <- r ;; k" := (bind r (fun x => k))
  (at level 200, x pattern, r at level 100, k at level 200, right associativity).
Notation "'guard' b 'else' e ;; k" := (if b then k else Err e)
  (at level 200, b at level 100, e at level 0, k at level 200, right associativity).

(** Whether a call returned (no counterpart in the code) *)
Definition is_ok {A} (r : result A) : bool := match r with Ok _ => true | Err _ => false end.

(** len(x) as a Python int *)
Definition zlen {A} (l : list A) : Z := Z.of_nat (length l).

(** x[i] for i >= 0; None stands for IndexError. The bound is tested before the conversion
    to nat so that huge indices stay cheap to evaluate. *)
Definition znth {A} (l : list A) (i : Z) : option A :=
  if (0 <=? i) && (i <? zlen l) then nth_error l (Z.to_nat i) else None.

(** Assignment to an element of a list, by position (no counterpart in the code) *)
Fixpoint upd_nth {A} (n : nat) (l : list A) (v : A) : list A :=
  match l, n with
  | [], _ => []
  | _ :: t, O => v :: t
  | h :: t, S n' => h :: upd_nth n' t v
  end.

(** x[i] = v for i in range; unchanged otherwise (callers check the bound first). *)
Definition zupd {A} (l : list A) (i : Z) (v : A) : list A :=
  if (0 <=? i) && (i <? zlen l) then upd_nth (Z.to_nat i) l v else l.

(** x[a:b] for 0 <= a <= b *)
Definition ztake {A} (n : Z) (l : list A) : list A := firstn (Z.to_nat (Z.min n (zlen l))) l.
(** Python slice l[n:] *)
Definition zdrop {A} (n : Z) (l : list A) : list A := skipn (Z.to_nat (Z.min n (zlen l))) l.
(** Python slice l[a:b] *)
Definition slice {A} (a b : Z) (l : list A) : list A := ztake (b - a) (zdrop a l).

(** x[a:a+len(d)] = d on a list long enough *)
Definition splice {A} (a : Z) (d : list A) (l : list A) : list A :=
  ztake a l ++ d ++ zdrop (a + zlen d) l.

(** b'\0' * n *)
Definition zeros (n : Z) : list Z := repeat 0 (Z.to_nat n).

(** Python range(start, start + len) *)
Definition zseq (start len : Z) : list Z :=
  map (fun k => start + Z.of_nat k) (seq 0 (Z.to_nat len)).

(** An element of bytes *)
Definition is_byte (b : Z) : Prop := 0 <= b < 256.
(** A Python bytes object *)
Definition bytes (l : list Z) : Prop := Forall is_byte l.
(** The same as a test *)
Definition is_byteb (b : Z) : bool := (0 <=? b) && (b <? 256).

(** Python == on bytes, strings and lists of numbers *)
Fixpoint zlist_eqb (a b : list Z) : bool :=
  match a, b with
  | [], [] => true
  | x :: a', y :: b' => (x =? y) && zlist_eqb a' b'
  | _, _ => false
  end.

(** Python == on a number or None *)
Definition opt_eqb (a b : option Z) : bool :=
  match a, b with
  | None, None => true
  | Some x, Some y => x =? y
  | _, _ => false
  end.
