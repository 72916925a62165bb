(** Model of src/aaf2/cache.py: LRUCacheDict, with its nodes as a store of records linked by
    node numbers (Python object references). *)
From Verif Require Import Base.
From Coq Require Import ZArith List Bool.
Import ListNotations.

Open Scope nat_scope.
Section LRU.
Variables K V : Type.
Variable keqb : K -> K -> bool.

(** cache.py:8-15 LRUNode *)
Record node : Type := mknode {
  n_next : nat; n_prev : nat;
  n_value : option V;           (* None is Python None *)
  n_empty : bool;
  n_key : option K }.

(** cache.py:19-27 the object: the dict [data], [head] and the heap of nodes.
    The dict is a function; Python's KeyError on a missing key is the None case. *)
Record lru : Type := mklru {
  heap : nat -> node;
  data : K -> option nat;
  lhead : nat }.

(** node.next = v (cache.py:10) *)
Definition set_next (h : nat -> node) (i v : nat) : nat -> node :=
  let nd := h i in fun j => if Nat.eqb j i then mknode v (n_prev nd) (n_value nd) (n_empty nd) (n_key nd) else h j.
(** node.prev = v (cache.py:11) *)
Definition set_prev (h : nat -> node) (i v : nat) : nat -> node :=
  let nd := h i in fun j => if Nat.eqb j i then mknode (n_next nd) v (n_value nd) (n_empty nd) (n_key nd) else h j.
(** node.value = v (cache.py:12) *)
Definition set_value (h : nat -> node) (i : nat) (v : option V) : nat -> node :=
  let nd := h i in fun j => if Nat.eqb j i then mknode (n_next nd) (n_prev nd) v (n_empty nd) (n_key nd) else h j.
(** node.empty = b (cache.py:14) *)
Definition set_empty (h : nat -> node) (i : nat) (b : bool) : nat -> node :=
  let nd := h i in fun j => if Nat.eqb j i then mknode (n_next nd) (n_prev nd) (n_value nd) b (n_key nd) else h j.
(** node.key = k (cache.py:15) *)
Definition set_key (h : nat -> node) (i : nat) (k : option K) : nat -> node :=
  let nd := h i in fun j => if Nat.eqb j i then mknode (n_next nd) (n_prev nd) (n_value nd) (n_empty nd) k else h j.

(** self.data[k] = v, and del self.data[k] (cache.py:53-100) *)
Definition data_set (d : K -> option nat) (k : K) (v : option nat) : K -> option nat :=
  fun k' => if keqb k' k then v else d k'.

(** cache.py:29-35 body of the construction loop: node number i is spliced in before head (0) *)
Definition init_step (h : nat -> node) (i : nat) : nat -> node :=
  let h1 := set_next h i 0 in                       (* node.next = self.head *)
  let h2 := set_prev h1 i (n_prev (h1 0)) in        (* node.prev = self.head.prev *)
  let h3 := set_next h2 (n_prev (h2 0)) i in        (* self.head.prev.next = node *)
  set_prev h3 0 i.                                  (* self.head.prev = node *)

(** cache.py:21-35 __init__: node 0 is head, linked to itself; then [size] more nodes *)
Definition init (size : nat) : lru :=
  mklru (fold_left init_step (seq 1 size) (fun _ => mknode 0 0 None true None))
        (fun _ => None) 0.

(** cache.py:37-48 make_first *)
Definition make_first (hd : nat) (h : nat -> node) (x : nat) : nat -> node :=
  let h1 := set_next h (n_prev (h x)) (n_next (h x)) in
  let h2 := set_prev h1 (n_next (h1 x)) (n_prev (h1 x)) in
  let h3 := set_prev h2 x (n_prev (h2 hd)) in
  let h4 := set_next h3 x (n_next (h3 (n_prev (h3 hd)))) in
  let h5 := set_prev h4 (n_next (h4 x)) x in
  set_next h5 (n_prev (h5 x)) x.

(** cache.py:50-51 __contains__ *)
Definition contains (s : lru) (k : K) : bool :=
  match data s k with Some _ => true | None => false end.

(** cache.py:53-73 __setitem__ *)
Definition setitem (s : lru) (k : K) (v : V) : result lru :=
  match data s k with
  | Some node =>
    let h1 := set_value (heap s) node (Some v) in
    Ok (mklru (make_first (lhead s) h1 node) (data s) node)
  | None =>
    let node := n_prev (heap s (lhead s)) in
    do d <- (if n_empty (heap s node) then Ok (data s)
             else match n_key (heap s node) with          (* del self.data[node.key] *)
                  | Some k' => match data s k' with
                               | Some _ => Ok (data_set (data s) k' None)
                               | None => Err KeyError
                               end
                  | None => Err KeyError
                  end) ;;
    let h1 := set_empty (heap s) node false in
    let h2 := set_key h1 node (Some k) in
    let h3 := set_value h2 node (Some v) in
    Ok (mklru h3 (data_set d k (Some node)) node)
  end.

(** cache.py:81-89 get; None stands for the caller's default (a miss) *)
Definition get (s : lru) (k : K) : lru * option V :=
  match data s k with
  | None => (s, None)
  | Some node =>
    let h1 := make_first (lhead s) (heap s) node in
    (mklru h1 (data s) node, n_value (h1 node))
  end.

(** cache.py:91-100 __delitem__ *)
Definition delitem (s : lru) (k : K) : result lru :=
  match data s k with
  | None => Err KeyError
  | Some node =>
    let d := data_set (data s) k None in
    let h1 := set_empty (heap s) node true in
    let h2 := set_key h1 node None in
    let h3 := set_value h2 node None in
    let h4 := make_first (lhead s) h3 node in
    Ok (mklru h4 d (n_next (h4 node)))
  end.

(** Operations a user can perform, and a run of them. A failed operation leaves the state as it was. *)
Inductive op := OSet (k : K) (v : V) | OGet (k : K) | ODel (k : K) | OHas (k : K).
(** What a caller sees *)
Inductive obs := RUnit | RVal (o : option V) | RBool (b : bool) | RErr (e : err).

(** One operation: cache.py:50-100 *)
Definition step (s : lru) (o : op) : lru * obs :=
  match o with
  | OSet k v => match setitem s k v with Ok s' => (s', RUnit) | Err e => (s, RErr e) end
  | OGet k => let '(s', r) := get s k in (s', RVal r)
  | ODel k => match delitem s k with Ok s' => (s', RUnit) | Err e => (s, RErr e) end
  | OHas k => (s, RBool (contains s k))
  end.

(** A sequence of operations *)
Fixpoint run (s : lru) (os : list op) : lru * list obs :=
  match os with
  | [] => (s, [])
  | o :: t => let '(s1, r) := step s o in let '(s2, rs) := run s1 t in (s2, r :: rs)
  end.

(** ** Specification: an association list, most recently used first, at most [cap] long. *)
Fixpoint al_get (l : list (K * V)) (k : K) : option V :=
  match l with
  | [] => None
  | (k', v) :: t => if keqb k k' then Some v else al_get t k
  end.
(** Specification: the list without a key *)
Definition al_remove (l : list (K * V)) (k : K) : list (K * V) :=
  filter (fun p => negb (keqb k (fst p))) l.

(** Specification: a list of pairs, last used first *)
Definition spec_step (cap : nat) (l : list (K * V)) (o : op) : list (K * V) * obs :=
  match o with
  | OSet k v =>
    match al_get l k with
    | Some _ => ((k, v) :: al_remove l k, RUnit)
    | None => ((k, v) :: firstn (cap - 1) l, RUnit)     (* the least recently used is dropped if full *)
    end
  | OGet k =>
    match al_get l k with
    | Some v => ((k, v) :: al_remove l k, RVal (Some v))
    | None => (l, RVal None)
    end
  | ODel k =>
    match al_get l k with
    | Some _ => (al_remove l k, RUnit)
    | None => (l, RErr KeyError)
    end
  | OHas k => (l, RBool (match al_get l k with Some _ => true | None => false end))
  end.

(** and a sequence of operations on it *)
Fixpoint spec_run (cap : nat) (l : list (K * V)) (os : list op) : list (K * V) * list obs :=
  match os with
  | [] => (l, [])
  | o :: t => let '(l1, r) := spec_step cap l o in let '(l2, rs) := spec_run cap l1 t in (l2, r :: rs)
  end.
End LRU.
