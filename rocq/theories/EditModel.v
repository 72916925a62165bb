(** Editing an open file: a tree of objects attached to storages, changed property by property, and the
    saving of what was changed (core.py, properties.py, file.py). *)
From Verif Require Import Base Codec Text TypesModel ObjModel TreeModel.
From Coq Require Import ZArith List Bool String.
Import ListNotations.
Open Scope Z_scope.

(** ** Storages *)

(** cfb.py:2099-2140 move, of the entry it takes away *)
Definition ddel (d : dir) (n : list Z) : dir := let 'Dir c l := d in Dir c (filter (fun x => negb (zlist_eqb (fst x) n)) l).
(** what is done in the storage [n] of an object below; it is there as long as the object is attached *)
Definition within (d : dir) (n : list Z) (k : dir -> result dir) : result dir :=
  match dget d n with Some (Sub s) => do s' <- k s ;; Ok (dput d n (Sub s')) | _ => Err GenericError end.

(** ** Objects below an object *)

(** The storages and objects of a property (properties.py:339-348, 507-526, 808-821) *)
Definition kids (p : prop) : list (list Z * obj) :=
  match p with
  | PRef _ (Some n) (Some o) => [(n, o)]
  | PVec _ (Some n) _ _ items => map (fun x => (element_storage n (fst x), snd x)) items
  | PSet _ (Some n) _ _ _ _ items => map (fun x => (element_storage n (fst (snd x)), snd (snd x))) items
  | _ => []
  end.
(** The object at the name [n] of its storage *)
Definition kid (props : list (Z * prop)) (n : list Z) : option obj :=
  dict_get zlist_eqb (flat_map (fun x => kids (snd x)) props) n.
(** The same properties with the object at [n] changed to [c]: objects are changed in place, whoever
    refers to them. *)
Definition put_kid (n : list Z) (c : obj) (p : prop) : prop :=
  match p with
  | PRef d (Some m) (Some o) => PRef d (Some m) (Some (if zlist_eqb m n then c else o))
  | PVec d (Some m) next last items => PVec d (Some m) next last
      (map (fun x => (fst x, if zlist_eqb (element_storage m (fst x)) n then c else snd x)) items)
  | PSet d (Some m) next last kpid ksize items => PSet d (Some m) next last kpid ksize
      (map (fun x => (fst x, (fst (snd x), if zlist_eqb (element_storage m (fst (snd x))) n then c else snd (snd x)))) items)
  | p => p
  end.

(** The place of an object: names of storages from the root (DirEntry.path, cfb.py:1000-1009). *)
Definition path := list (list Z).
(** == on paths *)
Fixpoint path_eqb (a b : path) : bool :=
  match a, b with [], [] => true | x :: a', y :: b' => zlist_eqb x y && path_eqb a' b' | _, _ => false end.
(** the places of an object attached at [] and of all below it *)
Fixpoint paths (o : obj) : list path :=
  match o with Obj cls props => [] :: (fix go l := match l with [] => [] | x :: r =>
    match snd x with
    | PRef _ (Some n) (Some o) => map (cons n) (paths o)
    | PVec _ (Some n) _ _ items => (fix g l := match l with [] => [] | y :: t => map (cons (element_storage n (fst y))) (paths (snd y)) ++ g t end) items
    | PSet _ (Some n) _ _ _ _ items => (fix g l := match l with [] => [] | y :: t => map (cons (element_storage n (fst (snd y)))) (paths (snd (snd y))) ++ g t end) items
    | _ => []
    end ++ go r end) props
  end.

Section Code.
Variable names : Z -> Z -> list Z.

(** core.py:200-216 AAFObject.attach; nothing is written yet *)
Fixpoint attach_obj (d : dir) (o : obj) {struct o} : result dir :=
  match o with
  | Obj cls props => each (fun x d => attach_prop names attach_obj cls (fst x) (snd x) d) props (set_class d cls)
  end.

(** core.py:169-198 detach with delete False: the objects below come first (walk_references, 217-247);
    properties.py:254-264 StreamProperty.detach moves the stream to a temporary storage; the other detach
    methods (382-384, 667-671, 963-967) only keep the objects in memory. The storages stay where they are. *)
Definition detach_prop (rec : obj -> dir -> result dir) (p : prop) (d : dir) : result dir :=
  match p with
  | PStream _ None _ => Err AttachError
  | PStream _ (Some n) _ => match dget d n with None => Err AttachError | Some _ => Ok (ddel d n) end
  | PRef _ (Some n) (Some o) => within d n (rec o)
  | PVec _ (Some n) _ _ items => each (fun x d => within d (element_storage n (fst x)) (rec (snd x))) items d
  | PSet _ (Some n) _ _ _ _ items => each (fun x d => within d (element_storage n (fst (snd x))) (rec (snd (snd x)))) items d
  | _ => Ok d
  end.
(** core.py:169-198 AAFObject.detach *)
Fixpoint detach_obj (o : obj) (d : dir) {struct o} : result dir :=
  match o with Obj cls props => each (fun x d => detach_prop detach_obj (snd x) d) props d end.

(** ** Changes of one object *)

(** The methods of the properties that take part. Values are already encoded; the unique key of an object
    that goes into a set is given; [loaded] says if the object replaced is in memory at that moment, which
    depends on the caches (properties.py:366, 899). Negative indexes of vectors, and those beyond
    the end in insert, are the subject of C30. *)
Inductive edit :=
| EPut (pid : Z) (p : prop)                               (* value and references that are not objects *)
| EDel (pid : Z)                                          (* value = None *)
| ERef (pid : Z) (o : obj) (loaded : bool)
| EAppend (pid : Z) (o : obj)
| EInsert (pid i : Z) (o : obj)
| EPop (pid i : Z)
| EAssign (pid i : Z) (o : obj)
| EClear (pid : Z)
| EAdd (pid : Z) (kpid ksize : Z) (key : list Z) (o : obj) (loaded : bool)
| ERemove (pid : Z) (key : list Z).

(** The properties after a change, the storages whose objects are detached, and the objects attached then,
    each with its storage. *)
Definition outcome := (list (Z * prop) * list (list Z) * list (list Z * obj))%type.

(** [l] without its element at [i], and with an element before it *)
Definition drop_at {A} (l : list A) (i : Z) : list A := ztake i l ++ zdrop (i + 1) l.
(** list.insert *)
Definition insert_at {A} (l : list A) (i : Z) (a : A) : list A := ztake i l ++ a :: zdrop i l.

(** The properties of the object after one change; the lines of each case are at it *)
Definition edit_props (cls : Z) (props : list (Z * prop)) (e : edit) : result outcome :=
  match e with
  (* properties.py:149-168, 1074-1095, 1209-1245 *)
  | EPut pid p => Ok (dict_set Z.eqb props pid p, [], [])
  (* properties.py:174-176: the objects below are not detached *)
  | EDel pid => Ok (filter (fun x => negb (fst x =? pid)) props, [], [])
  (* properties.py:351-380 *)
  | ERef pid o loaded =>
    match dict_get Z.eqb props pid with
    | Some (PRef d (Some n) old) =>
      Ok (dict_set Z.eqb props pid (PRef d (Some n) (Some o)), match old with Some _ => if loaded then [n] else [] | None => [] end, [(n, o)])
    | None =>
      let n := mangle_name (names cls pid) pid 32 in
      do e <- encode_utf16le n ;; Ok (dict_set Z.eqb props pid (PRef (Some e) (Some n) (Some o)), [], [(n, o)])
    | _ => Err TypeError
    end
  (* properties.py:626-652, 673-686: attach passes over the objects that are in their storage *)
  | EAppend pid o =>
    match dict_get Z.eqb props pid with
    | Some (PVec d (Some n) next last items) =>
      Ok (dict_set Z.eqb props pid (PVec d (Some n) (next + 1) last (items ++ [(next, o)])), [], [(element_storage n next, o)])
    | None =>
      let n := mangle_name (names cls pid) pid 22 in
      do e <- encode_utf16le n ;;
      Ok (dict_set Z.eqb props pid (PVec (Some e) (Some n) 1 4294967295 [(0, o)]), [], [(element_storage n 0, o)])
    | _ => Err TypeError
    end
  (* properties.py:605-624: a property that is not there yet is not entered *)
  | EInsert pid i o =>
    match dict_get Z.eqb props pid with
    | Some (PVec d (Some n) next last items) =>
      guard (0 <=? i) && (i <=? zlen items) else NotImplemented ;;
      Ok (dict_set Z.eqb props pid (PVec d (Some n) (next + 1) last (insert_at items i (next, o))), [], [(element_storage n next, o)])
    | None => Ok (props, [], [(element_storage (mangle_name (names cls pid) pid 22) 0, o)])
    | _ => Err TypeError
    end
  (* properties.py:575-602 *)
  | EPop pid i =>
    match dict_get Z.eqb props pid with
    | Some (PVec d (Some n) next last items) =>
      guard (0 <=? i) else NotImplemented ;;
      match znth items i with
      | None => Err IndexError
      | Some (k, _) => Ok (dict_set Z.eqb props pid (PVec d (Some n) next last (drop_at items i)), [element_storage n k], [])
      end
    | _ => Err TypeError
    end
  (* properties.py:540-559 *)
  | EAssign pid i o =>
    match dict_get Z.eqb props pid with
    | Some (PVec d (Some n) next last items) =>
      guard (0 <=? i) else NotImplemented ;;
      match znth items i with
      | None => Err IndexError
      | Some (k, _) =>
        Ok (dict_set Z.eqb props pid (PVec d (Some n) next last (zupd items i (k, o))), [element_storage n k], [(element_storage n k, o)])
      end
    | _ => Err TypeError
    end
  (* properties.py:561-572, 925-933 *)
  | EClear pid =>
    match dict_get Z.eqb props pid with
    | Some (PVec d (Some n) next last items) =>
      Ok (dict_set Z.eqb props pid (PVec d (Some n) 0 last []), map (fun x => element_storage n (fst x)) items, [])
    | Some (PSet d (Some n) next last kpid ksize items) =>
      Ok (dict_set Z.eqb props pid (PSet d (Some n) 0 last kpid ksize []), map (fun x => element_storage n (fst (snd x))) items, [])
    | _ => Err TypeError
    end
  (* properties.py:868-923 *)
  | EAdd pid kpid ksize key o loaded =>
    match dict_get Z.eqb props pid with
    | Some (PSet d (Some n) next last kp ks items) =>
      match dict_get zlist_eqb items key with
      | Some (k, _) =>
        Ok (dict_set Z.eqb props pid (PSet d (Some n) next last kp ks (dict_set zlist_eqb items key (k, o))),
            if loaded then [element_storage n k] else [], [(element_storage n k, o)])
      | None =>
        Ok (dict_set Z.eqb props pid (PSet d (Some n) (next + 1) last kp ks (items ++ [(key, (next, o))])), [], [(element_storage n next, o)])
      end
    | None =>
      let n := mangle_name (names cls pid) pid 22 in
      do e <- encode_utf16le n ;;
      Ok (dict_set Z.eqb props pid (PSet (Some e) (Some n) 1 4294967295 (Some kpid) (Some ksize) [(key, (0, o))]), [], [(element_storage n 0, o)])
    | _ => Err TypeError
    end
  (* properties.py:936-947 *)
  | ERemove pid key =>
    match dict_get Z.eqb props pid with
    | Some (PSet d (Some n) next last kp ks items) =>
      match dict_get zlist_eqb items key with
      | None => Err KeyError
      | Some (k, _) => Ok (dict_set Z.eqb props pid (PSet d (Some n) next last kp ks (filter (fun x => negb (zlist_eqb (fst x) key)) items)), [element_storage n k], [])
      end
    | _ => Err TypeError
    end
  end.

(** A change of the object attached to [d]: the new properties, then detach of the objects that go and
    attach of those that come. The order of the first two is not seen in the storages. *)
Definition edit_obj (e : edit) (d : dir) (o : obj) : result (dir * obj * (list (list Z) * list (list Z * obj))) :=
  let 'Obj cls props := o in
  do (props', gone, new) <- edit_props cls props e ;;
  do d1 <- each (fun n d => match kid props n with Some c => within d n (detach_obj c) | None => Err GenericError end) gone d ;;
  do d2 <- each (fun x d => in_sub d (fst x) (fun s => attach_obj s (snd x))) new d1 ;;
  Ok (d2, Obj cls props', (gone, new)).

(** properties.py:227-252 open in a mode that writes, and the whole new content: the stream is in the storage
    of the object at once; a property that was not there is entered, and nothing is marked as modified. *)
Definition edit_stream (pid : Z) (b : list Z) (d : dir) (o : obj) : result (dir * obj) :=
  let 'Obj cls props := o in
  do (data, n) <- match dict_get Z.eqb props pid with
     | Some (PStream data (Some n) _) => Ok (data, n)
     | None => let n := mangle_name (names cls pid) pid 32 in do e <- stream_data n ;; Ok (Some e, n)
     | _ => Err TypeError
     end ;;
  do d' <- put_stream d n b ;;
  Ok (d', Obj cls (dict_set Z.eqb props pid (PStream data (Some n) (Some b)))).

(** core.py:135-167 write_properties of an attached object *)
Definition save_here (d : dir) (o : obj) : result dir := let 'Obj cls props := o in save_obj names cls props d.

(** The object at a place is found by way of its parents, which stay as they are (properties.py:339-348,
    507-526, 808-821 and file.py:101-130). *)
Fixpoint at_path {A} (k : dir -> obj -> result (dir * obj * A)) (w : path) (d : dir) (o : obj) : result (dir * obj * A) :=
  match w with
  | [] => k d o
  | n :: r =>
    let 'Obj cls props := o in
    match kid props n, dget d n with
    | Some c, Some (Sub s) =>
      do (s', c', a) <- at_path k r s c ;;
      Ok (dput d n (Sub s'), Obj cls (map (fun x => (fst x, put_kid n c' (snd x))) props), a)
    | _, _ => Err KeyError
    end
  end.

(** ** The file *)

(** The root storage, the root object with all below it, and the places of the modified objects
    (file.py:65-72). *)
Record session := Session { s_dir : dir; s_obj : obj; s_mod : list path }.

(** file.py:78-85 add_modified *)
Definition add_mod (m : list path) (w : path) : list path := if existsb (path_eqb w) m then m else m ++ [w].
(** whether [w] is at [v] or below it *)
Fixpoint below_path (v w : path) : bool :=
  match v, w with [] , _ => true | a :: v', b :: w' => zlist_eqb a b && below_path v' w' | _, [] => false end.

(** A change of the object at a place, writing to a stream of it (cfb.py:243-308 Stream.write), or AAFFile.save (file.py:361-370) *)
Inductive action := AEdit (w : path) (e : edit) | AStream (w : path) (pid : Z) (b : list Z) | ASave.

(** file.py:132-144 write_objects: every modified object is written. A place where no object of the tree is any
    more belongs to one that was taken out with value = None; it is written where nothing refers to it, which
    is left out. *)
Fixpoint resolves (w : path) (o : obj) : bool :=
  match w with
  | [] => true
  | n :: r => let 'Obj _ props := o in match kid props n with Some c => resolves r c | None => false end
  end.
(** file.py:132-144 write_objects *)
Definition save_all (s : session) : result session :=
  do (d, o) <- each (fun w st =>
      if resolves w (snd st) then
        do (d', o', u) <- at_path (fun d o => do d' <- save_here d o ;; Ok (d', o, tt)) w (fst st) (snd st) ;; Ok (d', o')
      else Ok st) (s_mod s) (s_dir s, s_obj s) ;;
  Ok (Session d o []).

(** One action. Detached objects leave the list of modified ones (file.py:87-93), attached ones enter it
    (core.py:207-208), and the object itself is marked by writeonly (properties.py:60-67). *)
Definition act (s : session) (a : action) : result session :=
  match a with
  | AEdit w e =>
    do (d, o, (gone, new)) <- at_path (edit_obj e) w (s_dir s) (s_obj s) ;;
    let m1 := filter (fun v => negb (existsb (fun n => below_path (w ++ [n]) v) gone)) (s_mod s) in
    let m2 := fold_left add_mod (flat_map (fun x => map (fun v => w ++ fst x :: v) (paths (snd x))) new) m1 in
    Ok (Session d o (add_mod m2 w))
  | AStream w pid b =>
    do (d, o, u) <- at_path (fun d o => do (d', o') <- edit_stream pid b d o ;; Ok (d', o', tt)) w (s_dir s) (s_obj s) ;;
    Ok (Session d o (s_mod s))
  | ASave => save_all s
  end.

(** A new file: the root object is attached to the empty root storage (file.py:246-250). *)
Definition create (o : obj) : result session := do d <- attach_obj empty_dir o ;; Ok (Session d o (paths o)).
(** An existing one: what is read is what is in memory (file.py:210-216). *)
Definition open_file (fuel : nat) (d : dir) : result session := do o <- read_obj names fuel d ;; Ok (Session d o []).
(** A sequence of actions *)
Definition run (s : session) (l : list action) : result session := each (fun a s => act s a) l s.
End Code.
