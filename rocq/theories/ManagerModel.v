(** The object manager of an open file (file.py:61-144) with the weak references the properties keep to the
    objects below (properties.py:297-316, 339-348, 507-526, 808-821): which object is in memory for a place in
    the file, when it is read again, and what is written on saving. *)
From Verif Require Import Base TypesModel.
From Coq Require Import ZArith List Bool.
Import ListNotations.
Open Scope Z_scope.

(** Objects in memory have numbers; a place is the path of a storage, also a number here. What an object holds
    in its properties is one value [Z]: the objects below it are objects of their own, and how they hang
    together is the subject of C65. *)
Record mobj := MObj { o_dir : option Z; o_val : Z }.

(** The value of an object whose storage has no properties stream (core.py:69-72). *)
Definition blank : Z := 0.

(** file.py:61-70 and the file itself. [w_disk]: the storages and what their properties streams hold. [w_slot]:
    the weak reference to the object at a place that the property above it keeps while that property is in
    memory. [w_held]: the objects the program, or an object that is not attached, refers to. *)
Record world := World { w_ro : bool; w_mem : list (Z * mobj); w_disk : list (Z * Z);
  w_cache : list (Z * Z); w_lru : list (Z * Z); w_mod : list (Z * Z); w_slot : list (Z * Z); w_held : list Z; w_next : Z }.

(** update of one field (no counterpart in the code) *)
Definition set_mem w x := World (w_ro w) x (w_disk w) (w_cache w) (w_lru w) (w_mod w) (w_slot w) (w_held w) (w_next w).
(** the file (core.py:135-167) *)
Definition set_disk w x := World (w_ro w) (w_mem w) x (w_cache w) (w_lru w) (w_mod w) (w_slot w) (w_held w) (w_next w).
(** self.path_cache (file.py:69) *)
Definition set_cache w x := World (w_ro w) (w_mem w) (w_disk w) x (w_lru w) (w_mod w) (w_slot w) (w_held w) (w_next w).
(** self.lru_cache (file.py:70) *)
Definition set_lru w x := World (w_ro w) (w_mem w) (w_disk w) (w_cache w) x (w_mod w) (w_slot w) (w_held w) (w_next w).
(** self.modified (file.py:72) *)
Definition set_mod w x := World (w_ro w) (w_mem w) (w_disk w) (w_cache w) (w_lru w) x (w_slot w) (w_held w) (w_next w).
(** the references of properties to objects in memory *)
Definition set_slot w x := World (w_ro w) (w_mem w) (w_disk w) (w_cache w) (w_lru w) (w_mod w) x (w_held w) (w_next w).
(** the variables of the program *)
Definition set_held w x := World (w_ro w) (w_mem w) (w_disk w) (w_cache w) (w_lru w) (w_mod w) (w_slot w) x (w_next w).
(** the next new object *)
Definition set_next w x := World (w_ro w) (w_mem w) (w_disk w) (w_cache w) (w_lru w) (w_mod w) (w_slot w) (w_held w) x.

(** dict.pop(key, None), and the loss of all weak references to an object *)
Definition without {A} (l : list (Z * A)) (k : Z) : list (Z * A) := filter (fun x => negb (fst x =? k)) l.
(** weakref.WeakValueDictionary: the entries of an object that is gone *)
Definition unlink (l : list (Z * Z)) (i : Z) : list (Z * Z) := filter (fun x => negb (snd x =? i)) l.
(** an object the program got hold of *)
Definition hold (w : world) (i : Z) : world := set_held w (i :: w_held w).

(** cache.py:53-73 LRUCacheDict.__setitem__ with the default size of 512 and the node that is made first, as
    the list of its keys, last used first (C15 relates the two) *)
Definition lru_size : nat := 513.
(** cache.py:53-73 *)
Definition lru_set (l : list (Z * Z)) (p i : Z) : list (Z * Z) := firstn lru_size ((p, i) :: without l p).

(** file.py:96-98 __setitem__ *)
Definition setitem (w : world) (p i : Z) : world :=
  set_cache (set_lru w (lru_set (w_lru w) p i)) (dict_set Z.eqb (w_cache w) p i).
(** file.py:79-85 add_modified; the test of the mode is made before by writeonly *)
Definition add_modified (w : world) (p i : Z) : world := setitem (set_mod w (dict_set Z.eqb (w_mod w) p i)) p i.
(** file.py:87-94 pop *)
Definition mpop (w : world) (p : Z) : world :=
  set_lru (set_mod (set_cache w (without (w_cache w) p)) (without (w_mod w) p)) (without (w_lru w) p).

(** file.py:101-130 read_object: the object of the path cache, or a new one read from the storage *)
Definition read_object (w : world) (p : Z) : world * result Z :=
  match dict_get Z.eqb (w_cache w) p with
  | Some i => (w, Ok i)
  | None =>
    match dict_get Z.eqb (w_disk w) p with
    | None => (w, Err ValueError)
    | Some v => let i := w_next w in
      (setitem (set_next (set_mem w (dict_set Z.eqb (w_mem w) i (MObj (Some p) v))) (i + 1)) p i, Ok i)
    end
  end.

(** properties.py:339-348, 507-526, 808-821: the weak reference of the property is asked first and set after *)
Definition get_value (w : world) (p : Z) : world * result Z :=
  match dict_get Z.eqb (w_slot w) p with
  | Some i => (hold w i, Ok i)
  | None =>
    let (w1, r) := read_object w p in
    match r with Ok i => (hold (set_slot w1 (dict_set Z.eqb (w_slot w1) p i)) i, Ok i) | Err e => (w1, Err e) end
  end.

(** core.py:135-167 write_properties for each modified object (file.py:132-144). [valid]: all required
    properties are there (core.py:109-133); [indexed]: there is a vector or set, whose write_index is a writeonly
    method (properties.py:480, 784, 1147) and so marks the object again. *)
Section Save.
Variables valid indexed : Z -> bool.
(** file.py:132-144: the loop; an exception ends it *)
Fixpoint write_loop (l : list (Z * Z)) (w : world) : world * result Z :=
  match l with
  | [] => (w, Ok 0)
  | (p, i) :: r =>
    match dict_get Z.eqb (w_mem w) i with
    | Some (MObj (Some q) v) =>
      if valid v then
        let w1 := set_disk w (dict_set Z.eqb (w_disk w) q v) in
        write_loop r (if indexed v then add_modified w1 q i else w1)
      else (w, Err PropertyError)
    | _ => (w, Err GenericError)
    end
  end.
(** file.py:132-144 write_objects *)
Definition save (w : world) : world * result Z :=
  if w_ro w then (w, Ok 0) else
  let (w1, r) := write_loop (w_mod w) w in
  match r with Ok _ => (set_mod w1 (fold_left (fun m x => without m (fst x)) (w_mod w) (w_mod w1)), Ok 0) | Err e => (w1, Err e) end.

(** What a program does, and what happens beside it. *)
Inductive mop :=
| Get (p : Z)            (* the value of a reference *)
| New (v : Z)            (* an object is made *)
| Put (i v : Z)          (* properties of an object are changed *)
| Attach (i p : Z)       (* an object becomes the value of a reference *)
| Detach (i : Z)         (* it is taken out with pop, remove, clear or by a new value *)
| Leave (p : Z)          (* value = None *)
| Forget (p : Z)         (* the property above a place is no longer in memory *)
| Drop (i : Z)           (* the program lets an object go *)
| Collect (i : Z)        (* the garbage collector looks at an object *)
| Save.

(** properties.py:60-67 writeonly; core.py:169-216 attach and detach of one object, which the methods that
    take out or replace an object call; all of them are writeonly. *)
Definition step (w : world) (o : mop) : world * result Z :=
  match o with
  | Get p => get_value w p
  | New v => let i := w_next w in
    (hold (set_next (set_mem w (dict_set Z.eqb (w_mem w) i (MObj None v))) (i + 1)) i, Ok i)
  | Put i v =>
    if w_ro w then (w, Err PropertyError) else
    match dict_get Z.eqb (w_mem w) i with
    | None => (w, Err GenericError)
    | Some (MObj d _) =>
      let w1 := set_mem w (dict_set Z.eqb (w_mem w) i (MObj d v)) in
      (match d with Some p => add_modified w1 p i | None => w1 end, Ok i)
    end
  | Attach i p =>
    if w_ro w then (w, Err PropertyError) else
    match dict_get Z.eqb (w_mem w) i with
    | None => (w, Err GenericError)
    | Some (MObj (Some _) _) => (w, Err AttachError)
    | Some (MObj None v) =>
      let w1 := set_mem w (dict_set Z.eqb (w_mem w) i (MObj (Some p) v)) in
      let w2 := match dict_get Z.eqb (w_disk w1) p with Some _ => w1 | None => set_disk w1 (dict_set Z.eqb (w_disk w1) p blank) end in
      let w3 := add_modified w2 p i in
      (set_slot w3 (dict_set Z.eqb (w_slot w3) p i), Ok i)
    end
  | Detach i =>
    if w_ro w then (w, Err PropertyError) else
    match dict_get Z.eqb (w_mem w) i with
    | None => (w, Err GenericError)
    | Some (MObj None _) => (hold w i, Ok i)
    | Some (MObj (Some p) v) =>
      let w1 := mpop w p in
      (hold (set_slot (set_mem w1 (dict_set Z.eqb (w_mem w1) i (MObj None v))) (unlink (w_slot w1) i)) i, Ok i)
    end
  | Leave p => if w_ro w then (w, Err PropertyError) else (set_slot w (without (w_slot w) p), Ok 0)
  | Forget p => (set_slot w (without (w_slot w) p), Ok 0)
  | Drop i => (set_held w (filter (fun j => negb (j =? i)) (w_held w)), Ok 0)
  | Collect i =>
    if existsb (Z.eqb i) (w_held w) || existsb (fun x => snd x =? i) (w_lru w) || existsb (fun x => snd x =? i) (w_mod w) then (w, Ok 0)
    else (set_slot (set_cache (set_mem w (without (w_mem w) i)) (unlink (w_cache w) i)) (unlink (w_slot w) i), Ok 1)
  | Save => save w
  end.

(** properties.py:351-380 the value setter of a reference: the object the weak reference knows is detached, and
    the new one attached *)
Definition set_ref (w : world) (p j : Z) : world * result Z :=
  match dict_get Z.eqb (w_slot w) p with
  | Some i => let (w1, r) := step w (Detach i) in match r with Ok _ => step w1 (Attach j p) | Err e => (w1, Err e) end
  | None => step w (Attach j p)
  end.

(** A file just opened (file.py:197-219). *)
Definition opened (ro : bool) (disk : list (Z * Z)) : world := World ro [] disk [] [] [] [] [] 0.
End Save.
