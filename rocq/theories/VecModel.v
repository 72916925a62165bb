(** Strong reference vectors (properties.py 405-683). *)
From Verif Require Import Base.
From Coq Require Import ZArith List Bool.
Import ListNotations.
Open Scope Z_scope.

(** An object is a number. What obj.dir refers to: the storage with key k of this vector's parent, or an
    entry elsewhere in the file. DirEntry.__eq__ (cfb.py 696-704) compares only names, so an entry
    elsewhere is given as [There (Some k)] when it happens to be named like storage k here. *)
Inductive dref : Type := Here (k : Z) | There (n : option Z).

(** The property, what it can see of the file, and obj.dir of every object.
    - [v_att]: parent.dir is set; [v_reg]: the property is in parent.property_entries.
    - [v_objs]: self.objects as a partial map (the order of its keys is never observed).
    - [v_store]: what parent.dir holds under "%s{%x}" % (index_name, key): no entry, an entry nothing was
      ever attached to, or the object last attached there. Reading it gives that object: while the object is
      modified the manager's path cache has it, later its properties stream (file.py 65-144). *)
Record vec := Vec {
  v_att : bool;
  v_reg : bool;
  v_refs : list Z;
  v_next : Z;
  v_objs : Z -> option Z;
  v_store : Z -> option (option Z);
  v_odir : Z -> option dref }.

(** parent.dir of the property: attached or not *)
Definition w_att b (s : vec) := Vec b (v_reg s) (v_refs s) (v_next s) (v_objs s) (v_store s) (v_odir s).
(** parent.property_entries[pid] = self, or its removal *)
Definition w_reg b (s : vec) := Vec (v_att s) b (v_refs s) (v_next s) (v_objs s) (v_store s) (v_odir s).
(** self.references, or a change of it *)
Definition w_refs r (s : vec) := Vec (v_att s) (v_reg s) r (v_next s) (v_objs s) (v_store s) (v_odir s).
(** self.next_free_key *)
Definition w_next n (s : vec) := Vec (v_att s) (v_reg s) (v_refs s) n (v_objs s) (v_store s) (v_odir s).
(** self.objects, or a change of it *)
Definition w_objs o (s : vec) := Vec (v_att s) (v_reg s) (v_refs s) (v_next s) o (v_store s) (v_odir s).
(** the directory of the parent, or a change of it *)
Definition w_store t (s : vec) := Vec (v_att s) (v_reg s) (v_refs s) (v_next s) (v_objs s) t (v_odir s).
(** obj.dir of some object *)
Definition w_odir d (s : vec) := Vec (v_att s) (v_reg s) (v_refs s) (v_next s) (v_objs s) (v_store s) d.

(** assignment to one element of a function (no counterpart in the code) *)
Definition upd {A} (f : Z -> A) (k : Z) (v : A) : Z -> A := fun j => if j =? k then v else f j.

(** Statements: an exception leaves the state as changed so far *)
Definition M (A : Type) : Type := vec -> vec * result A.
(** return *)
Definition ret {A} (a : A) : M A := fun s => (s, Ok a).
(** raise *)
Definition raise {A} (e : err) : M A := fun s => (s, Err e).
(** One statement after another *)
Definition mbind {A B} (m : M A) (f : A -> M B) : M B :=
  fun s => match m s with (s', Ok a) => f a s' | (s', Err e) => (s', Err e) end.
(** An assignment *)
Definition modify (f : vec -> vec) : M unit := fun s => (f s, Ok tt).
(** Reading attributes *)
Definition view {A} (f : vec -> A) : M A := fun s => (s, Ok (f s)).
Declare Scope m_scope.
Delimit Scope m_scope with m.
Notation "x <- m ;; k" := (mbind m (fun x => k)) (at level 62, m at next level, right associativity) : m_scope.
Notation "m ;;; k" := (mbind m (fun _ => k)) (at level 62, right associativity) : m_scope.
Open Scope m_scope.

Section Vector.
(** ref_classdef.isinstance(obj.classdef) and obj.root is self.parent.root *)
Variable okclass : Z -> bool.
Variable okroot : Z -> bool.

(** properties.py 511-526 get(index, None). Reading through an unattached parent or a storage without an
    object raises (AttributeError, or what find/lookup_class/read_properties raise): GenericError. *)
Definition v_get (i : Z) : M (option Z) := fun s =>
  let n := zlen (v_refs s) in
  if n <=? i then (s, Ok None) else
  let i := if i <? 0 then Z.max 0 (n + i) else i in
  match v_objs s i with
  | Some o => (s, Ok (Some o))
  | None =>
    match znth (v_refs s) i with
    | None => (s, Err IndexError)
    | Some k =>
      if negb (v_att s) then (s, Err GenericError) else
      match v_store s k with
      | Some (Some o) => (w_objs (upd (v_objs s) i (Some o)) s, Ok (Some o))
      | _ => (s, Err GenericError)
      end
    end
  end.

(** properties.py 535-539 __getitem__ *)
Definition v_item (i : Z) : M (option Z) :=
  o <- v_get i ;; match o with None => raise IndexError | Some _ => ret o end.

(** properties.py 528-530 __iter__: for i in range(len(self.references)): self.get(i), with a body *)
Fixpoint v_for (n : nat) (i : Z) (body : Z -> Z -> M unit) : M (list Z) :=
  match n with
  | O => ret []
  | S n' =>
    o <- v_get i ;;
    match o with
    | None => raise GenericError
    | Some x => body i x ;;; r <- v_for n' (i + 1) body ;; ret (x :: r)
    end
  end.
(** the same over all elements *)
Definition v_each (body : Z -> Z -> M unit) : M (list Z) := fun s => v_for (List.length (v_refs s)) 0 body s.
(** properties.py 653-655 value, list(p) *)
Definition v_iter : M (list Z) := v_each (fun _ _ => ret tt).

(** core.py 169-198 AAFObject.detach as far as this vector is concerned: obj.dir = None *)
Definition obj_detach (o : Z) : M unit := modify (fun s => w_odir (upd (v_odir s) o None) s).

(** cfb.py 696-704 obj.dir != dir_entry, for the entry of storage k *)
Definition same_name (d : option dref) (k : Z) : bool :=
  match d with
  | None => false
  | Some (Here k') => k' =? k
  | Some (There (Some k')) => k' =? k
  | Some (There None) => false
  end.

(** core.py 200-206 obj.attach(dir_entry); attaching what obj owns is not modelled *)
Definition obj_attach (o k : Z) : M unit := fun s =>
  match v_odir s o with
  | Some _ => (s, Err AttachError)
  | None => (w_store (upd (v_store s) k (Some (Some o))) (w_odir (upd (v_odir s) o (Some (Here k))) s), Ok tt)
  end.

(** properties.py 673-679, the body of the loop *)
Definition attach_body (i o : Z) : M unit := fun s =>
  match znth (v_refs s) i with
  | None => (s, Err IndexError)
  | Some k =>
    let s1 := match v_store s k with None => w_store (upd (v_store s) k (Some None)) s | Some _ => s end in
    if same_name (v_odir s1 o) k then (s1, Ok tt) else obj_attach o k s1
  end.
(** properties.py 668-679 attach *)
Definition v_attach : M unit := fun s =>
  if negb (v_att s) then (s, Ok tt) else (v_each attach_body ;;; ret tt) s.

(** properties.py 541-560 __setitem__ *)
Definition v_setitem (i v : Z) : M unit := fun s =>
  let n := zlen (v_refs s) in
  let i := if i <? 0 then Z.max 0 (n + i) else i in
  if n <=? i then (s, Err IndexError) else
  if negb (okroot v) then (s, Err AttachError) else
  match v_odir s v with
  | Some _ => (s, Err AttachError)
  | None =>
    (obj <- v_get i ;;
     match obj with Some o => obj_detach o | None => ret tt end ;;;
     modify (fun s => w_objs (upd (v_objs s) i (Some v)) s) ;;;
     v_attach) s
  end.

(** properties.py 562-574 clear *)
Definition v_clear : M unit :=
  v_each (fun _ o => obj_detach o) ;;;
  modify (fun s => w_objs (fun _ => None) (w_refs [] (w_next 0 s))).

(** list.pop(i) for 0 <= i < len *)
Definition list_pop (l : list Z) (i : Z) : list Z := ztake i l ++ zdrop (i + 1) l.

(** properties.py 576-605 pop *)
Definition v_pop (i : Z) : M (option Z) :=
  obj <- v_get i ;;
  match obj with
  | None => raise IndexError
  | Some o => fun s =>
    let n := zlen (v_refs s) in
    let i := if i <? 0 then Z.max 0 (n + i) else i in
    let old := v_objs s in
    let s1 := w_objs (fun j => if j <? i then old j else old (j + 1)) (w_refs (list_pop (v_refs s) i) s) in
    match old i with
    | None => (s1, Err NameError)
    | Some item => if item =? o then (obj_detach o ;;; ret (Some o)) s1 else (s1, Err AssertionError)
    end
  end.

(** list.insert(i, x): negative counts from the end, then clamped *)
Definition list_insert (l : list Z) (i x : Z) : list Z :=
  let n := zlen l in
  let i := if i <? 0 then Z.max 0 (n + i) else Z.min i n in
  ztake i l ++ [x] ++ zdrop i l.

(** properties.py 607-628 insert *)
Definition v_insert (i v : Z) : M unit := fun s =>
  if negb (okclass v) then (s, Err AssertionError) else
  let old := v_objs s in
  v_attach
    (w_objs (fun j => if j =? i then Some v else if i <? j then old (j - 1) else old j)
       (w_next (v_next s + 1) (w_refs (list_insert (v_refs s) i (v_next s)) s))).

(** properties.py 634-643: the checks of extend *)
Fixpoint extend_check (vs : list Z) : M unit :=
  match vs with
  | [] => ret tt
  | v :: r => fun s =>
    if negb (okclass v) then (s, Err AssertionError) else
    if negb (okroot v) then (s, Err AttachError) else
    match v_odir s v with Some _ => (s, Err AttachError) | None => extend_check r s end
  end.
(** properties.py 645-649 *)
Fixpoint extend_add (vs : list Z) : M unit :=
  match vs with
  | [] => ret tt
  | v :: r =>
    modify (fun s => w_next (v_next s + 1)
                       (w_objs (upd (v_objs s) (zlen (v_refs s)) (Some v))
                          (w_refs (v_refs s ++ [v_next s]) s))) ;;;
    extend_add r
  end.
(** properties.py 630-652 extend; append(v) is extend([v]) *)
Definition v_extend (vs : list Z) : M unit :=
  extend_check vs ;;; extend_add vs ;;; modify (w_reg true) ;;; v_attach.

(** properties.py 658-666 value setter; None removes the property from its parent *)
Definition v_setvalue (vs : option (list Z)) : M unit :=
  match vs with None => modify (w_reg false) | Some vs => v_clear ;;; v_extend vs end.

(** core.py 200-216 parent.attach(dir_entry): [t] is what the new directory already holds *)
Definition p_attach (t : Z -> option (option Z)) : M unit := fun s =>
  if v_att s then (s, Err AttachError) else
  let s1 := w_store t (w_att true s) in
  if v_reg s then v_attach s1 else (s1, Ok tt).

(** core.py 169-198 parent.detach(): walk_references reads all elements and detaches each of them,
    then p.detach (properties.py 668-672) reads them again *)
Fixpoint detach_all (l : list Z) : M unit :=
  match l with [] => ret tt | o :: r => obj_detach o ;;; detach_all r end.
(** core.py:169-198 parent.detach() *)
Definition p_detach : M unit := fun s =>
  if negb (v_reg s) then (w_att false s, Ok tt) else
  (l <- v_iter ;; detach_all l ;;; l2 <- v_iter ;;
   modify (fun s => w_att false (w_objs (fun i => znth l2 i) s))) s.

(** What a client can do. [OGc]: self.objects is a WeakValueDictionary while attached, so any entries may
    disappear; reopening the file drops them all. [OEnv]: something else attaches or detaches an object. *)
Inductive op : Type :=
  | OGet (i : Z) | OItem (i : Z) | OLen | OIter
  | OSet (i v : Z) | OPop (i : Z) | OInsert (i v : Z) | OExtend (vs : list Z) | OClear | OValue (vs : list Z)
  | OGc (keep : Z -> bool) | OAttach (t : Z -> option (option Z)) | ODetach | OEnv (o : Z) (d : option (option Z)).

(** What the methods return *)
Inductive out : Type := RUnit | RObj (o : option Z) | RList (l : list Z) | RInt (n : Z).

(** The value a method returns *)
Definition lift {A} (f : A -> out) (m : M A) : M out := a <- m ;; ret (f a).
(** One operation: the functions above *)
Definition run_op (o : op) : M out :=
  match o with
  | OGet i => lift RObj (v_get i)
  | OItem i => lift RObj (v_item i)
  | OLen => view (fun s => RInt (zlen (v_refs s)))
  | OIter => lift RList v_iter
  | OSet i v => lift (fun _ => RUnit) (v_setitem i v)
  | OPop i => lift RObj (v_pop i)
  | OInsert i v => lift (fun _ => RUnit) (v_insert i v)
  | OExtend vs => lift (fun _ => RUnit) (v_extend vs)
  | OClear => lift (fun _ => RUnit) v_clear
  | OValue vs => lift (fun _ => RUnit) (v_setvalue (Some vs))
  | OGc keep => fun s => (if v_att s then w_objs (fun i => if keep i then v_objs s i else None) s else s, Ok RUnit)
  | OAttach t => lift (fun _ => RUnit) (p_attach t)
  | ODetach => lift (fun _ => RUnit) p_detach
  | OEnv o d => fun s => (w_odir (upd (v_odir s) o (match d with None => None | Some n => Some (There n) end)) s, Ok RUnit)
  end.

(** A sequence of operations *)
Fixpoint run (ops : list op) (s : vec) : vec * list (result out) :=
  match ops with
  | [] => (s, [])
  | o :: r => let '(s1, x) := run_op o s in let '(s2, xs) := run r s1 in (s2, x :: xs)
  end.
End Vector.

(** properties.py 408-421: the property object of a parent (not) in the file *)
Definition fresh (att : bool) (t : Z -> option (option Z)) (odir : Z -> option dref) : vec :=
  Vec att false [] 0 (fun _ => None) t odir.
