(** Editorial structures: keyframes (src/aaf2/misc.py), sequences (components.py, mobslots.py),
    slot ids and dependency traversal (mobs.py), property ids and class hierarchy (metadict.py). *)
From Verif Require Import Base.
From Coq Require Import ZArith QArith List Bool Lia.
Import ListNotations.
Open Scope Z_scope.

(** ** Keyframes: misc.py:227-350 VaryingValue *)

Section Keyframes.
Variable V : Type.

(** The list of control points as (time, value). [p.time] is float(self['Time'].value)
    (misc.py:355-357), a rational number here: every finite double is one. *)
Definition points := list (Q * V).

(** misc.py:332-350 nearest_index; pointlist[m] outside the list is an IndexError. *)
Fixpoint nearest_loop (fuel : nat) (pts : points) (t : Q) (start fin : Z) : result Z :=
  match fuel with
  | O => Err OutOfFuel
  | S fuel =>
    if fin <? start then Ok (Z.max 0 fin)
    else
      let m := (start + fin) / 2 in
      match znth pts m with
      | None => Err IndexError
      | Some p =>
        match Qcompare (fst p) t with
        | Lt => nearest_loop fuel pts t (m + 1) fin
        | Gt => nearest_loop fuel pts t start (m - 1)
        | Eq => Ok m
        end
      end
  end.
(** misc.py:332-350 nearest_index *)
Definition nearest_index (pts : points) (t : Q) : result Z :=
  nearest_loop (S (List.length pts)) pts t 0 (zlen pts - 1).

(** list.insert at an index in range *)
Definition zinsert {A} (l : list A) (i : Z) (v : A) : list A := ztake i l ++ v :: zdrop i l.

(** misc.py:227-250 add_keyframe. [fl] is float(): the time is stored as the exact rational given and
    every later read of the point gives its float; the search compares with the time as given.
    Simplification: the time fits the stored rational, the value fits its type, edit hints and the
    object bookkeeping of the vector (C30) are left out. *)
Variable fl : Q -> Q.
(** misc.py:227-250 add_keyframe *)
Definition add_keyframe (pts : points) (time : Q) (value : V) : result points :=
  if 0 <? zlen pts then
    do index <- nearest_index pts time ;;
    match znth pts index with
    | None => Err IndexError
    | Some p =>
      if Qeq_bool (fst p) (fl time) then Ok (zupd pts index (fl time, value))
      else Ok (zinsert pts (index + 1) (fl time, value))
    end
  else Ok [(fl time, value)].

(** add_keyframe several times *)
Fixpoint add_keyframes (pts : points) (l : list (Q * V)) : result points :=
  match l with
  | [] => Ok pts
  | (t, v) :: r => do p <- add_keyframe pts t v ;; add_keyframes p r
  end.
End Keyframes.

(** misc.py:252-278 value_at for constant and linear interpolation (lerp: interpolation.py:12-13).
    Simplification: exact arithmetic where the code rounds to doubles; Bezier and cubic interpolation
    are not modelled. *)
Definition lerp (a b t : Q) : Q := (a + (b - a) * t)%Q.
(** misc.py:252-278 value_at *)
Definition value_at (linear : bool) (pts : points Q) (t : Q) : result Q :=
  do index <- nearest_index Q pts t ;;
  match znth pts index with
  | None => Err IndexError
  | Some p1 =>
    if negb (Qle_bool (fst p1) t) || (zlen pts <=? index + 1) then Ok (snd p1)
    else if negb linear then Ok (snd p1)
    else
      match znth pts (index + 1) with
      | None => Err IndexError
      | Some p2 =>
        let t_len := (fst p2 - fst p1)%Q in
        if Qeq_bool t_len 0 then Err ZeroDivision
        else Ok (lerp (snd p1) (snd p2) ((t - fst p1) / t_len))
      end
  end.

(** ** Sequences: components.py:86-118 *)

(** a component: is it a Transition, its length *)
Definition component := (bool * Z)%type.

(** components.py:109-118 positions: (index, position, component) *)
Fixpoint positions_from (index length : Z) (cs : list component) : list (Z * Z * component) :=
  match cs with
  | [] => []
  | (true, n) :: r => (index, length - n, (true, n)) :: positions_from (index + 1) (length - n) r
  | (false, n) :: r => (index, length, (false, n)) :: positions_from (index + 1) (length + n) r
  end.
(** components.py:109-118 positions *)
Definition positions (cs : list component) : list (Z * Z * component) := positions_from 0 0 cs.

(** components.py:86-107 index_at_time; None stands for Python's None. [last] is the pair
    last_component / last_index (an AAFObject is always true as a condition). *)
Fixpoint index_loop (edit_unit : Z) (last : option Z) (ps : list (Z * Z * component)) : option Z :=
  match ps with
  | [] => last
  | (index, position, (tr, n)) :: r =>
    if tr && ((position <=? edit_unit) && (edit_unit <? position + n)) then Some index
    else
      match last with
      | Some i => if edit_unit <=? position then Some i else index_loop edit_unit (Some index) r
      | None => index_loop edit_unit (Some index) r
      end
  end.
(** components.py:86-107 index_at_time *)
Definition index_at_time (cs : list component) (edit_unit : Z) : option Z :=
  if edit_unit <=? 0 then Some 0 else index_loop edit_unit None (positions cs).

(** mobslots.py:122-141 TimelineMobSlot.length *)
Inductive segment := SSequence (cs : list component) | SNested (slots : list segment) | SOther (length : Z).
(** mobslots.py:126-133, the loop over a sequence *)
Fixpoint slot_length_loop (length : Z) (cs : list component) : Z :=
  match cs with
  | [] => length
  | (true, n) :: r => slot_length_loop (length - n) r
  | (false, n) :: r => slot_length_loop (length + n) r
  end.
(** the value of max() is dropped by the loop over the slots of a nested scope *)
Definition slot_length (s : segment) : Z :=
  match s with
  | SSequence cs => slot_length_loop 0 cs
  | SNested slots => fold_left (fun length _ => length) slots 0
  | SOther n => n
  end.

(** ** Slot ids: mobs.py:83-105 *)

(** slots.sort() *)
Fixpoint insert_sorted (x : Z) (l : list Z) : list Z :=
  match l with [] => [x] | y :: t => if x <=? y then x :: l else y :: insert_sorted x t end.
(** list.sort() *)
Fixpoint sort_ids (l : list Z) : list Z := match l with [] => [] | x :: t => insert_sorted x (sort_ids t) end.

(** the loop of mobs.py:96-98: slot_id is overwritten at every mismatch *)
Fixpoint pick_loop (i : Z) (es : list (option Z)) (slot_id : option Z) : option Z :=
  match es with
  | [] => slot_id
  | e :: r => pick_loop (i + 1) r (if match e with Some x => i =? x | None => false end then slot_id else Some i)
  end.

(** the id of the new slot. Simplification: only the ids of the slots. *)
Definition create_timeline_slot (ids : list Z) (slot_id : option Z) : result (option Z * list Z) :=
  let slots := sort_ids ids in
  match slot_id with
  | None =>
    let start := match slots with x :: _ => if x =? 0 then 0 else 1 | [] => 1 end in
    let id := pick_loop start (map Some slots ++ [None]) None in
    Ok (id, match id with Some i => ids ++ [i] | None => ids end)
  | Some i => guard (negb (existsb (Z.eqb i) slots)) else ValueError ;; Ok (Some i, ids ++ [i])
  end.

(** mobs.py:83-87 slot_at: the first slot with the id *)
Fixpoint slot_at {A} (slots : list (Z * A)) (slot_id : Z) : result A :=
  match slots with
  | [] => Err IndexError
  | (i, s) :: r => if i =? slot_id then Ok s else slot_at r slot_id
  end.

(** ** Dependencies: mobs.py:150-176 dependant_mobs.
    [refs m] lists the mobs that the source references found in mob [m] resolve to, in the order
    walk_references yields them; unresolved references are skipped. Simplification: a mob is its id. *)
Section Deps.
Variable refs : Z -> list Z.
(** mobs.py:150-176: membership in the set of visited mobs *)
Definition seen (visited : list Z) (m : Z) : bool := existsb (Z.eqb m) visited.

(** [stack] has its top at the head; yields are collected in [out] *)
Fixpoint deps_loop (fuel : nat) (self : Z) (stack visited out : list Z) : result (list Z) :=
  match stack with
  | [] => Ok out
  | mob :: rest =>
    match fuel with
    | O => Err OutOfFuel
    | S fuel =>
      match filter (fun r => negb (seen visited r)) (refs mob) with
      | [] =>
        if seen visited mob then deps_loop fuel self rest visited out
        else deps_loop fuel self rest (mob :: visited) (if mob =? self then out else out ++ [mob])
      | children => deps_loop fuel self (rev children ++ mob :: rest) visited out
      end
    end
  end.
(** mobs.py:150-176 dependant_mobs *)
Definition dependant_mobs (fuel : nat) (self : Z) : result (list Z) := deps_loop fuel self [self] [] [].
End Deps.

(** ** Dynamic property ids: metadict.py:547-558 next_free_pid.
    State: next_pid, local_pids. *)
Fixpoint pid_loop (fuel : nat) (next : Z) (used : list Z) : result Z :=
  if existsb (Z.eqb next) used then
    match fuel with
    | O => Err OutOfFuel
    | S fuel => if next - 1 <? 32768 then Err ValueError else pid_loop fuel (next - 1) used
    end
  else Ok next.
(** the loop stops below 0x8000, so these many rounds are enough *)
Definition next_free_pid (st : Z * list Z) : result (Z * (Z * list Z)) :=
  let (next, used) := st in
  do r <- pid_loop (S (Z.to_nat (next - 32768))) next used ;;
  Ok (r, (r - 1, r :: used)).

(** metadict.py:422-433: a property registered with its own dynamic id *)
Definition claim_pid (st : Z * list Z) (pid : Z) : result (Z * list Z) :=
  let (next, used) := st in
  if 32768 <=? pid then (guard (negb (existsb (Z.eqb pid) used)) else AssertionError ;; Ok (next, pid :: used)) else Ok st.

(** ** Class hierarchy: metadict.py:193-273. [parent_id c] is the stored parent of class [c], None if
    the property is missing; a class that is its own parent is a root. [known c]: c is registered. *)
Section Classes.
Variable parent_id : Z -> option Z.
Variable known : Z -> bool.

(** metadict.py:217-224 parent *)
Definition parent (c : Z) : option Z :=
  match parent_id c with
  | Some p => if p =? c then None else if known p then Some p else None
  | None => None
  end.

(** metadict.py:269-273 relatives *)
Fixpoint relatives (fuel : nat) (c : Z) : result (list Z) :=
  match fuel with
  | O => Err OutOfFuel
  | S fuel => match parent c with Some p => do r <- relatives fuel p ;; Ok (c :: r) | None => Ok [c] end
  end.

(** metadict.py:193-201 self.isinstance(other) *)
Definition class_isinstance (fuel : nat) (self other : Z) : result bool :=
  if self =? other then Ok true
  else do r <- relatives fuel other ;; Ok (existsb (fun c => c =? self) r).

(** properties.py:360, 607, 633, 875, 1081, 1215: value accepted where ref_classdef is required *)
Definition accepts (fuel : nat) (ref_classdef value_classdef : Z) : result bool := class_isinstance fuel ref_classdef value_classdef.

(** metadict.py:186-191 unique_key_size; [mob] and [essencedata] are the two classes looked up *)
Definition unique_key_size (fuel : nat) (mob essencedata self : Z) : result Z :=
  do a <- class_isinstance fuel self mob ;;
  if a then Ok 32 else do b <- class_isinstance fuel self essencedata ;; Ok (if b then 32 else 16).
End Classes.
