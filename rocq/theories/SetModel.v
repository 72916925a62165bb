(** Strong reference sets (properties.py 686-975). *)
From Verif Require Import Base TypesModel VecModel.
From Coq Require Import ZArith List Bool.
Import ListNotations.
Open Scope Z_scope.

(** As for vectors ([vec]); references is a dict from unique key to local key, objects a map from unique
    key to object, [t_key] the unique key of every object (None: the object has no unique property). A key
    (AUID or MobID) is a number. *)
Record sset := SSet {
  t_att : bool;
  t_reg : bool;
  t_refs : list (Z * Z);
  t_next : Z;
  t_objs : Z -> option Z;
  t_store : Z -> option (option Z);
  t_odir : Z -> option dref;
  t_key : Z -> option Z }.

(** parent.dir of the property: attached or not *)
Definition x_att b s := SSet b (t_reg s) (t_refs s) (t_next s) (t_objs s) (t_store s) (t_odir s) (t_key s).
(** parent.property_entries[pid] = self, or its removal *)
Definition x_reg b s := SSet (t_att s) b (t_refs s) (t_next s) (t_objs s) (t_store s) (t_odir s) (t_key s).
(** self.references, or a change of it *)
Definition x_refs r s := SSet (t_att s) (t_reg s) r (t_next s) (t_objs s) (t_store s) (t_odir s) (t_key s).
(** self.next_free_key *)
Definition x_next n s := SSet (t_att s) (t_reg s) (t_refs s) n (t_objs s) (t_store s) (t_odir s) (t_key s).
(** self.objects, or a change of it *)
Definition x_objs o s := SSet (t_att s) (t_reg s) (t_refs s) (t_next s) o (t_store s) (t_odir s) (t_key s).
(** the directory of the parent, or a change of it *)
Definition x_store t s := SSet (t_att s) (t_reg s) (t_refs s) (t_next s) (t_objs s) t (t_odir s) (t_key s).
(** obj.dir of some object *)
Definition x_odir d s := SSet (t_att s) (t_reg s) (t_refs s) (t_next s) (t_objs s) (t_store s) d (t_key s).
(** unique_key of some object *)
Definition x_key k s := SSet (t_att s) (t_reg s) (t_refs s) (t_next s) (t_objs s) (t_store s) (t_odir s) k.

(** Statements, as in VecModel *)
Definition T (A : Type) : Type := sset -> sset * result A.
(** return *)
Definition tret {A} (a : A) : T A := fun s => (s, Ok a).
(** raise *)
Definition traise {A} (e : err) : T A := fun s => (s, Err e).
(** One statement after another *)
Definition tbind {A B} (m : T A) (f : A -> T B) : T B :=
  fun s => match m s with (s', Ok a) => f a s' | (s', Err e) => (s', Err e) end.
(** An assignment *)
Definition tmod (f : sset -> sset) : T unit := fun s => (f s, Ok tt).
Declare Scope t_scope.
Delimit Scope t_scope with t.
Notation "x <- m ;; k" := (tbind m (fun x => k)) (at level 62, m at next level, right associativity) : t_scope.
Notation "m ;;; k" := (tbind m (fun _ => k)) (at level 62, right associativity) : t_scope.
Open Scope t_scope.

(** d.pop(k) *)
Definition dict_del {V} (d : list (Z * V)) (k : Z) : list (Z * V) := filter (fun p => negb (fst p =? k)) d.

Section Set_.
(** classdef.isinstance(item.classdef), item.root is self.parent.root *)
Variable okclass okroot : Z -> bool.
(** whether this is content.mobs or content.essencedata, whose keys can be swapped (properties.py 155-161) *)
Variable swappable : bool.

(** properties.py 811-821 read_object *)
Definition t_read (k : Z) : T Z := fun s =>
  match t_objs s k with
  | Some o => (s, Ok o)
  | None =>
    match dict_get Z.eqb (t_refs s) k with
    | None => (s, Err KeyError)
    | Some c =>
      if negb (t_att s) then (s, Err GenericError) else
      match t_store s c with
      | Some (Some o) => (x_objs (upd (t_objs s) k (Some o)) s, Ok o)
      | _ => (s, Err GenericError)
      end
    end
  end.
(** properties.py 823-824 __contains__ *)
Definition t_contains (k : Z) : T bool := fun s => (s, Ok (match dict_get Z.eqb (t_refs s) k with Some _ => true | None => false end)).
(** properties.py 841-844 get(key, None) *)
Definition t_get (k : Z) : T (option Z) :=
  b <- t_contains k ;; if b then o <- t_read k ;; tret (Some o) else tret None.
(** properties.py 846-850 __getitem__ *)
Definition t_item (k : Z) : T (option Z) := o <- t_get k ;; match o with None => traise KeyError | Some _ => tret o end.

(** properties.py 826-833 items(), with a body; the bodies used do not change the dict *)
Fixpoint t_for (ks : list Z) (body : Z -> Z -> T unit) : T (list (Z * Z)) :=
  match ks with
  | [] => tret []
  | k :: r => o <- t_read k ;; body k o ;;; l <- t_for r body ;; tret ((k, o) :: l)
  end.
(** properties.py:826-833: over all keys *)
Definition t_each (body : Z -> Z -> T unit) : T (list (Z * Z)) := fun s => t_for (map fst (t_refs s)) body s.
(** list(p.items()) *)
Definition t_items : T (list (Z * Z)) := t_each (fun _ _ => tret tt).

(** core.py 169-198 obj.detach() *)
Definition t_obj_detach (o : Z) : T unit := tmod (fun s => x_odir (upd (t_odir s) o None) s).
(** core.py 200-206 obj.attach(dir_entry) *)
Definition t_obj_attach (o c : Z) : T unit := fun s =>
  match t_odir s o with
  | Some _ => (s, Err AttachError)
  | None => (x_store (upd (t_store s) c (Some (Some o))) (x_odir (upd (t_odir s) o (Some (Here c))) s), Ok tt)
  end.
(** properties.py 910-915 and 964-969: find or make the storage, attach if obj.dir != dir_entry *)
Definition t_place (k o : Z) : T unit := fun s =>
  match dict_get Z.eqb (t_refs s) k with
  | None => (s, Err KeyError)
  | Some c =>
    let s1 := match t_store s c with None => x_store (upd (t_store s) c (Some None)) s | Some _ => s end in
    if same_name (t_odir s1 o) c then (s1, Ok tt) else t_obj_attach o c s1
  end.

(** properties.py 852-867 swap_unique_key *)
Definition t_swap (old new : Z) : T unit :=
  obj <- t_get old ;;
  match obj with
  | None => traise ValueError
  | Some o => fun s =>
    match dict_get Z.eqb (t_refs s) old with
    | None => (s, Err KeyError)
    | Some c =>
      (x_key (upd (t_key s) o (Some new))
         (x_objs (upd (upd (t_objs s) old None) new (Some o))
            (x_refs (dict_set Z.eqb (dict_del (t_refs s) old) new c) s)), Ok tt)
    end
  end.

(** properties.py 875-881: the checks of extend *)
Fixpoint t_check (vs : list Z) : T unit :=
  match vs with
  | [] => tret tt
  | v :: r => fun s =>
    if negb (okclass v) then (s, Err TypeError) else
    if negb (okroot v) then (s, Err AttachError) else
    match t_odir s v with Some _ => (s, Err AttachError) | None => t_check r s end
  end.
(** properties.py 893-915: one item; an object without its unique property raises AAFPropertyError *)
Definition t_add (v : Z) : T unit := fun s =>
  match t_key s v with
  | None => (s, Err PropertyError)
  | Some k =>
    let s1 := match t_objs s k with
              | Some cur => if cur =? v then s else x_odir (upd (t_odir s) cur None) s
              | None => s end in
    let s2 := match dict_get Z.eqb (t_refs s1) k with
              | None => x_next (t_next s1 + 1) (x_refs (dict_set Z.eqb (t_refs s1) k (t_next s1)) s1)
              | Some _ => s1 end in
    let s3 := x_objs (upd (t_objs s2) k (Some v)) s2 in
    if t_att s3 then t_place k v s3 else (s3, Ok tt)
  end.
(** properties.py:892-917: the loop over the objects given *)
Fixpoint t_adds (vs : list Z) : T unit := match vs with [] => tret tt | v :: r => t_add v ;;; t_adds r end.
(** properties.py 869-917 extend; append(v) is extend([v]). key_pid, key_size and index_name are not modelled. *)
Definition t_extend (vs : list Z) : T unit := t_check vs ;;; t_adds vs ;;; tmod (x_reg true).

(** properties.py 922-930 clear *)
Definition t_clear : T unit :=
  t_each (fun _ o => t_obj_detach o) ;;; tmod (fun s => x_objs (fun _ => None) (x_refs [] (x_next 0 s))).

(** properties.py 932-943 pop *)
Definition t_pop (k : Z) : T (option Z) :=
  obj <- t_get k ;;
  match obj with
  | None => traise KeyError
  | Some o =>
    tmod (fun s => x_objs (upd (t_objs s) k None) (x_refs (dict_del (t_refs s) k) s)) ;;; t_obj_detach o ;;; tret (Some o)
  end.

(** properties.py 969-982 attach: entries that are not in the cache are skipped *)
Fixpoint t_attach_loop (ks : list Z) : T unit :=
  match ks with
  | [] => tret tt
  | k :: r => fun s => (match t_objs s k with None => tret tt | Some o => t_place k o end ;;; t_attach_loop r) s
  end.
(** properties.py:969-982 attach *)
Definition t_attach : T unit := fun s => if negb (t_att s) then (s, Ok tt) else t_attach_loop (map fst (t_refs s)) s.

(** core.py 200-216 and 169-198, the owner's attach and detach, as for vectors *)
Definition q_attach (t : Z -> option (option Z)) : T unit := fun s =>
  if t_att s then (s, Err AttachError) else
  let s1 := x_store t (x_att true s) in
  if t_reg s then t_attach s1 else (s1, Ok tt).
(** core.py:169-198: the objects below, one after another *)
Fixpoint t_detach_all (l : list Z) : T unit :=
  match l with [] => tret tt | o :: r => t_obj_detach o ;;; t_detach_all r end.
(** core.py:169-198, the owner's detach, with properties.py:963-967 *)
Definition q_detach : T unit := fun s =>
  if negb (t_reg s) then (x_att false s, Ok tt) else
  (l <- t_items ;; t_detach_all (map snd l) ;;; l2 <- t_items ;;
   tmod (fun s => x_att false (x_objs (fun k => dict_get Z.eqb l2 k) s))) s.

(** properties.py 152-169 Property.value setter for the unique property of object o, which has a value:
    an attached object's key is swapped in the set, or refused *)
Definition t_setkey (o k : Z) : T unit := fun s =>
  match t_odir s o, t_key s o with
  | Some _, Some old =>
    if swappable then (t_swap old k ;;; tmod (fun s => x_key (upd (t_key s) o (Some k)) s)) s else (s, Err PropertyError)
  | _, _ => (x_key (upd (t_key s) o (Some k)) s, Ok tt)
  end.

(** The methods of a set, and what the rest of the program does *)
Inductive sop : Type :=
  | SGet (k : Z) | SItem (k : Z) | SContains (k : Z) | SLen | SItems
  | SExtend (vs : list Z) | SPop (k : Z) | SClear | SValue (vs : list Z) | SSwap (old new : Z) | SKey (o k : Z)
  | SGc (keep : Z -> bool) | SAttach (t : Z -> option (option Z)) | SDetach | SEnv (o : Z) (d : option (option Z)).

(** What they return *)
Inductive sout : Type := QUnit | QObj (o : option Z) | QItems (l : list (Z * Z)) | QInt (n : Z) | QBool (b : bool).

(** The value a method returns *)
Definition tlift {A} (f : A -> sout) (m : T A) : T sout := a <- m ;; tret (f a).
(** One operation: the functions above *)
Definition srun_op (o : sop) : T sout :=
  match o with
  | SGet k => tlift QObj (t_get k)
  | SItem k => tlift QObj (t_item k)
  | SContains k => tlift QBool (t_contains k)
  | SLen => fun s => (s, Ok (QInt (zlen (t_refs s))))
  | SItems => tlift QItems t_items
  | SExtend vs => tlift (fun _ => QUnit) (t_extend vs)
  | SPop k => tlift QObj (t_pop k)
  | SClear => tlift (fun _ => QUnit) t_clear
  | SValue vs => tlift (fun _ => QUnit) (t_clear ;;; t_extend vs)             (* properties.py 950-956 *)
  | SSwap old new => tlift (fun _ => QUnit) (t_swap old new)
  | SKey o k => tlift (fun _ => QUnit) (t_setkey o k)
  | SGc keep => fun s => (if t_att s then x_objs (fun k => if keep k then t_objs s k else None) s else s, Ok QUnit)
  | SAttach t => tlift (fun _ => QUnit) (q_attach t)
  | SDetach => tlift (fun _ => QUnit) q_detach
  | SEnv o d => fun s => (x_odir (upd (t_odir s) o (match d with None => None | Some n => Some (There n) end)) s, Ok QUnit)
  end.
(** A sequence of operations *)
Fixpoint srun (ops : list sop) (s : sset) : sset * list (result sout) :=
  match ops with
  | [] => (s, [])
  | o :: r => let '(s1, x) := srun_op o s in let '(s2, xs) := srun r s1 in (s2, x :: xs)
  end.
End Set_.

(** properties.py 688-707 *)
Definition sfresh (att : bool) (t : Z -> option (option Z)) (odir : Z -> option dref) (key : Z -> option Z) : sset :=
  SSet att false [] 0 (fun _ => None) t odir key.
