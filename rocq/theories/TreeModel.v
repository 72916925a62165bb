(** Whole objects: an object with everything below it, attached to a directory and saved, read back, and
    copied (core.py, properties.py, file.py). The byte formats are those of ObjModel. *)
From Verif Require Import Base Codec Text TypesModel ObjModel.
From Coq Require Import ZArith List Bool String.
Import ListNotations.
Open Scope Z_scope.

(** ** Storage *)

(** A storage of the compound file: class id and named entries, a stream or another storage. Only what
    DirEntry.get, touch, makedir and open show of it; the file below is the subject of C01-C27.
    Simplification: the order of entries is that of their creation, nothing below depends on it. *)
Inductive dir := Dir (cls : Z) (items : list (list Z * item))
with item := File (b : list Z) | Sub (d : dir).
(** cfb.py:1025-1033 makedir without a class id *)
Definition empty_dir : dir := Dir 0 [].
(** cfb.py:1038-1040 DirEntry.get *)
Definition dget (d : dir) (n : list Z) : option item := let 'Dir _ l := d in dict_get zlist_eqb l n.
(** The entry [n] of [d] after it was created or written. *)
Definition dput (d : dir) (n : list Z) (i : item) : dir := let 'Dir c l := d in Dir c (dict_set zlist_eqb l n i).
(** core.py:205 self.dir.class_id = self.class_id *)
Definition set_class (d : dir) (c : Z) : dir := let 'Dir _ l := d in Dir c l.

(** cfb.py:501-514, 1833-1860: names a new entry can have. The path is joined with "/" before it is
    split again, so a name with a "/" names something in another storage. Simplification: that is
    always refused, as it is when no storage has the name before the "/". *)
Definition entry_name (n : list Z) : result unit :=
  guard negb (existsb (Z.eqb 47) n) else ValueError ;;
  do d <- encode_utf16 n ;; guard (zlen d <=? 64) else AssertionError ;; Ok tt.

(** dir.touch(n).open('rw'), write, truncate (cfb.py:1042-1052, 1011-1014; C01 for the content) *)
Definition put_stream (d : dir) (n b : list Z) : result dir :=
  match dget d n with
  | Some (File _) => Ok (dput d n (File b))
  | Some (Sub _) => Err TypeError
  | None => do _ <- entry_name n ;; Ok (dput d n (File b))
  end.

(** properties.py:396-401, 681-685, 979-983: the storage of an element, found or made, and what
    [k] does in it. A stream of that name cannot be listed (cfb.py:1941). *)
Definition in_sub (d : dir) (n : list Z) (k : dir -> result dir) : result dir :=
  match dget d n with
  | Some (Sub s) => do s' <- k s ;; Ok (dput d n (Sub s'))
  | Some (File _) => Err ValueError
  | None => do _ <- entry_name n ;; do s' <- k empty_dir ;; Ok (dput d n (Sub s'))
  end.

(** ** Objects *)

(** An object (core.py:30-38): class id and property_entries. A property (properties.py) has its stored
    [data] and, separately, what the code keeps beside it:
    - [PData]: Property, UniqueIdProperty, OpaqueStreamProperty;
    - [PStream]: stream_name and the content of the stream it has, in its parent or in the temporary
      directory;
    - [PRef]: ref and the object;
    - [PVec]: _index_name, next_free_key, last_free_key, references with the objects they stand for;
    - [PSet]: index_name, the two keys, key_pid, key_size, references by unique key with their objects;
    - [PWeak] (WeakRefProperty, WeakRefPropertyId): weakref_index, key_pid, key_size, ref;
    - [PWeaks]: index_name, weakref_index, key_pid, key_size, references.
    Simplification: objects are a tree, found without the object manager; a reference whose object is
    not loaded yet is shown with the object it loads. *)
Inductive obj := Obj (cls : Z) (props : list (Z * prop))
with prop :=
| PData (format : Z) (data : option (list Z))
| PStream (data : option (list Z)) (name : option (list Z)) (content : option (list Z))
| PRef (data : option (list Z)) (ref : option (list Z)) (o : option obj)
| PVec (data : option (list Z)) (name : option (list Z)) (next last : Z) (items : list (Z * obj))
| PSet (data : option (list Z)) (name : option (list Z)) (next last : Z) (kpid ksize : option Z)
       (items : list (list Z * (Z * obj)))
| PWeak (format : Z) (data : option (list Z)) (index kpid ksize : option Z) (ref : option (list Z))
| PWeaks (format : Z) (data : option (list Z)) (name : option (list Z)) (index kpid ksize : option Z)
         (refs : list (list Z)).

(** for x in l: d = f(x, d), stopping at the first exception *)
Definition each {A S} (f : A -> S -> result S) : list A -> S -> result S :=
  fix go l d := match l with [] => Ok d | x :: r => do d' <- f x d ;; go r d' end.
(** [f(x) for x in l] *)
Definition all_of {A B} (f : A -> result B) : list A -> result (list B) :=
  fix go l := match l with [] => Ok [] | x :: r => do y <- f x ;; do ys <- go r ;; Ok (y :: ys) end.

(** struct.pack of None *)
Definition num (v : option Z) : result Z := match v with Some z => Ok z | None => Err StructError end.
(** index_name + " index" *)
Definition text_of (n : option (list Z)) : result (list Z) := match n with Some s => Ok s | None => Err TypeError end.

(** properties.py:213-214 StreamProperty.encode *)
Definition stream_data (n : list Z) : result (list Z) := do d <- encode_utf16le n ;; Ok (85 :: d).

Section Code.
(** The property names of the class definitions: class id and pid to property_name. *)
Variable names : Z -> Z -> list Z.

(** properties.py:451-460 StrongRefVectorProperty.index_name; an empty name counts as none *)
Definition vec_name (cls pid : Z) (n : option (list Z)) : list Z :=
  match n with Some (c :: s) => c :: s | _ => mangle_name (names cls pid) pid 22 end.
(** properties.py:456-459: reading index_name without having one also sets data. attach reads it for
    every element, write_index once. *)
Definition vec_data (cls pid : Z) (data n : option (list Z)) (items : list (Z * obj)) : result (option (list Z)) :=
  match n, items with
  | Some (_ :: _), _ | _, [] => Ok data
  | _, _ => do d <- encode_utf16le (mangle_name (names cls pid) pid 22) ;; Ok (Some d)
  end.

(** properties.py:266-283 (StreamProperty), 386-404 (StrongRefProperty), 673-686
    (StrongRefVectorProperty), 969-984 (StrongRefSetProperty): attach in the directory [d] of the parent.
    [rec] is AAFObject.attach of the object followed by its later write_properties.
    cfb.move puts the stream under the new name with its content (C20).
    Simplification: a set without a name would use "None{0}"; write_index raises for it in any case. *)
Definition attach_prop (rec : dir -> obj -> result dir) (cls pid : Z) (p : prop) (d : dir) : result dir :=
  match p with
  | PStream _ _ None => Ok d
  | PStream _ None (Some _) => Err AttachError
  | PStream _ (Some n) (Some b) =>
    match dget d n with
    | Some _ => Err AttachError
    | None => do _ <- entry_name n ;; Ok (dput d n (File b))
    end
  | PRef _ _ None => Ok d
  | PRef _ None (Some _) => Err TypeError
  | PRef _ (Some n) (Some o) => in_sub d n (fun s => rec s o)
  | PVec _ n _ _ items =>
    each (fun x d => in_sub d (element_storage (vec_name cls pid n) (fst x)) (fun s => rec s (snd x))) items d
  | PSet _ n _ _ _ _ items =>
    do n <- text_of n ;;
    each (fun x d => in_sub d (element_storage n (fst (snd x))) (fun s => rec s (snd (snd x)))) items d
  | _ => Ok d
  end.

(** The data written for a property (core.py:149-158) *)
Definition prop_data (cls pid : Z) (p : prop) : result (option (list Z)) :=
  match p with
  | PData _ d | PStream d _ _ | PRef d _ _ | PSet d _ _ _ _ _ _ | PWeak _ d _ _ _ _ | PWeaks _ d _ _ _ _ _ => Ok d
  | PVec d n _ _ items => vec_data cls pid d n items
  end.
(** properties.py:33-45, 1279-1291 *)
Definition prop_format (p : prop) : Z :=
  match p with
  | PData f _ => f | PStream _ _ _ => 66 | PRef _ _ _ => 34 | PVec _ _ _ _ _ => 50 | PSet _ _ _ _ _ _ _ => 58
  | PWeak f _ _ _ _ _ => f | PWeaks f _ _ _ _ _ _ => f
  end.

(** properties.py:489-502, 788-806, 1155-1169: write_index *)
Definition index_prop (cls pid : Z) (p : prop) (d : dir) : result dir :=
  match p with
  | PVec _ n next last items =>
    do b <- vec_write next last (map fst items) ;; put_stream d (index_stream (vec_name cls pid n)) b
  | PSet _ n next last kpid ksize items =>
    do n <- text_of n ;; do kpid <- num kpid ;; do ksize <- num ksize ;;
    do b <- set_write (SetIndex next last kpid ksize (map (fun x => (fst x, fst (snd x))) items)) ;;
    put_stream d (index_stream n) b
  | PWeaks _ _ n index kpid ksize refs =>
    do n <- text_of n ;; do index <- num index ;; do kpid <- num kpid ;; do ksize <- num ksize ;;
    do b <- weaks_write index kpid ksize refs ;; put_stream d (index_stream n) b
  | _ => Ok d
  end.

(** core.py:135-167 write_properties without validate *)
Definition save_obj (cls : Z) (props : list (Z * prop)) (d : dir) : result dir :=
  do es <- all_of (fun x => do v <- prop_data cls (fst x) (snd x) ;; Ok (fst x, prop_format (snd x), v)) props ;;
  do b <- encode_properties es ;;
  do d <- put_stream d (codes "properties") b ;;
  each (fun x d => index_prop cls (fst x) (snd x) d) props d.

(** core.py:200-216 attach of an object that is in no directory yet, and write_properties of it and of
    everything below it when the file is saved (file.py:132-144). Simplification: write_properties
    follows at once, where the code goes through the modified objects at the end; each object writes
    only its own "properties" and index streams, which attach does not touch. The directory after an
    exception is left out. *)
Fixpoint write_obj (d : dir) (o : obj) {struct o} : result dir :=
  match o with
  | Obj cls props =>
    do d1 <- each (fun x d => attach_prop write_obj cls (fst x) (snd x) d) props (set_class d cls) ;;
    save_obj cls props d1
  end.

(** manager.read_object(dir.get(n)) (file.py:101-130): of None, find raises AttributeError; a stream
    cannot be listed *)
Definition read_sub (rec : dir -> result obj) (d : dir) (n : list Z) : result obj :=
  match dget d n with
  | Some (Sub s) => rec s
  | Some (File _) => Err ValueError
  | None => Err GenericError
  end.
(** properties.py:473-478, 746-751, 1133-1138: the content of the index stream *)
Definition read_stream (d : dir) (n : list Z) : result (list Z) :=
  match dget d n with
  | Some (File b) => Ok b
  | Some (Sub _) => Err TypeError
  | None => Err PropertyError
  end.

(** decode, read_index and the value of one property (properties.py:208-211, 285-287, 330-331, 339-348,
    469-487, 511-526, 742-786, 811-821, 1035-1044, 1129-1153). Simplification: values are read at once instead of
    when they are asked for. *)
Definition read_prop (rec : dir -> result obj) (d : dir) (cls pid format : Z) (data : list Z) : result prop :=
  if format =? 66 then
    guard match data with 85 :: _ => true | _ => false end else AssertionError ;;
    let n := decode_utf16le (zdrop 1 data) in
    Ok (PStream (Some data) (Some n) (match dget d n with Some (File b) => Some b | _ => None end))
  else if format =? 34 then
    let n := decode_utf16le data in
    match dget d n with
    | None => Ok (PRef (Some data) (Some n) None)
    | Some _ => do o <- read_sub rec d n ;; Ok (PRef (Some data) (Some n) (Some o))
    end
  else if format =? 50 then
    let m := Some (decode_utf16le data) in
    let n := vec_name cls pid m in
    do data' <- match m with Some (_ :: _) => Ok data | _ => encode_utf16le n end ;;
    do b <- read_stream d (index_stream n) ;;
    do (next, last, keys) <- vec_read b ;;
    do items <- all_of (fun k => do o <- read_sub rec d (element_storage n k) ;; Ok (k, o)) keys ;;
    Ok (PVec (Some data') (Some n) next last items)
  else if format =? 58 then
    let n := decode_utf16le data in
    do b <- read_stream d (index_stream n) ;;
    do i <- set_read b ;;
    do items <- all_of (fun x => do o <- read_sub rec d (element_storage n (snd x)) ;; Ok (fst x, (snd x, o))) (si_refs i) ;;
    Ok (PSet (Some data) (Some n) (si_next i) (si_last i) (Some (si_pid i)) (Some (si_size i)) items)
  else if (format =? 2) || (format =? 3) then
    do (index, kpid, ksize, ref) <- weak_decode data ;;
    Ok (PWeak format (Some data) (Some index) (Some kpid) (Some ksize) (Some ref))
  else if (format =? 18) || (format =? 26) then
    let n := decode_utf16le data in
    do b <- read_stream d (index_stream n) ;;
    do (index, kpid, ksize, refs) <- weaks_read b ;;
    Ok (PWeaks format (Some data) (Some n) (Some index) (Some kpid) (Some ksize) refs)
  else Ok (PData format (Some data)).

(** file.py:118-130 and core.py:70-109 read_properties. [fuel] bounds the nesting. *)
Fixpoint read_obj (fuel : nat) (d : dir) : result obj :=
  match fuel with
  | O => Err OutOfFuel
  | S n =>
    let 'Dir cls _ := d in
    match dget d (codes "properties") with
    | None => Ok (Obj cls [])
    | Some (Sub _) => Err TypeError
    | Some (File b) =>
      do (version, es) <- read_properties b ;;
      do ps <- all_of (fun e => do p <- read_prop (read_obj n) d cls (fst e) (fst (snd e)) (snd (snd e)) ;; Ok (fst e, p)) es ;;
      Ok (Obj cls ps)
    end
  end.

(** properties.py:138-141 Property.copy: bytes(None) raises *)
Definition copy_data (d : option (list Z)) : result (list Z) :=
  match d with Some b => Ok b | None => Err TypeError end.

(** properties.py:192-206 StreamProperty.copy: the copy makes its own name and a temporary stream
    (219-225, 240-252); the content is copied in pieces until all of it is *)
Definition copy_stream (cls pid : Z) (content : option (list Z)) : result prop :=
  match content with
  | None => Err PropertyError
  | Some b =>
    let n := mangle_name (names cls pid) pid 32 in
    do d <- stream_data n ;; do _ <- entry_name n ;; Ok (PStream (Some d) (Some n) (Some b))
  end.

(** copy within one file, to no directory: core.py:249-280 with root None and new_dir None, and
    properties.py:138-141, 192-206, 315-325, 423-443 (the index is taken from references twice, and the
    name is the generated one while data is the old one), 713-732, 1008-1015 (key_pid becomes the pid of
    the property), 1108-1115. Simplification: a vector that has no name yet gets one while it is copied. *)
Definition copy_prop (rec : obj -> result obj) (cls pid : Z) (p : prop) : result prop :=
  match p with
  | PData f d => do d <- copy_data d ;; Ok (PData f (Some d))
  | PStream d n c => do _ <- copy_data d ;; copy_stream cls pid c
  | PRef d n o =>
    do d <- copy_data d ;;
    match o with
    | None => Err GenericError
    | Some o => do c <- rec o ;; Ok (PRef (Some d) n (Some c))
    end
  | PVec d n next last items =>
    do d <- copy_data d ;;
    let m := mangle_name (names cls pid) pid 22 in
    do _ <- encode_utf16le m ;;
    do cs <- all_of (fun x =>
        guard fst x <? zlen items else IndexError ;; do c <- rec (snd x) ;; Ok (fst x, c)) items ;;
    Ok (PVec (Some d) (Some m) next last cs)
  | PSet d n next last kpid ksize items =>
    do d <- copy_data d ;;
    do cs <- all_of (fun x => do c <- rec (snd (snd x)) ;; Ok (fst x, (fst (snd x), c))) items ;;
    Ok (PSet (Some d) n next last kpid ksize cs)
  | PWeak f d index kpid ksize ref => do d <- copy_data d ;; Ok (PWeak f (Some d) index (Some pid) ksize ref)
  | PWeaks f d n index kpid ksize refs => do d <- copy_data d ;; Ok (PWeaks f (Some d) n index kpid ksize refs)
  end.
(** core.py:249-284 AAFObject.copy *)
Fixpoint copy_obj (o : obj) : result obj :=
  match o with
  | Obj cls props =>
    do ps <- all_of (fun x => do p <- copy_prop copy_obj cls (fst x) (snd x) ;; Ok (fst x, p)) props ;;
    Ok (Obj cls ps)
  end.
End Code.

(** ** Copying to another file *)

(** What the other file says about a property of a class: its name, the pid it has there (None when the
    class does not have it), for references the index of the target in its weak reference table, the pid
    and size of the unique key, and which keys the target of a weak reference has. *)
Record target := Target {
  t_name : Z -> Z -> list Z; t_pid : Z -> Z -> option Z; t_index : Z -> Z -> Z;
  t_key : Z -> Z -> Z * Z; t_has : Z -> Z -> list Z -> bool }.

(** core.py:273-276: only dynamic pids are looked up *)
Definition new_pid (t : target) (cls pid : Z) : result Z :=
  if 32768 <=? pid then match t_pid t cls pid with Some q => Ok q | None => Err AssertionError end else Ok pid.

(** properties.py:138-141, 192-206, 326-328, 444-447, 733-736, 1016-1031, 1116-1122 with the setters and
    append they call (351-380, 627-651, 868-921, 1074-1095, 1209-1239) on a property with no directory.
    Simplifications: values are of the class the property asks for; the unique key of a copied element is
    its key in the original; the target of a single weak reference is in the other file, or was copied
    there by lines 1020-1029. *)
Definition copy_prop_to (t : target) (rec : obj -> result obj) (cls pid : Z) (p : prop) : result prop :=
  let ref22 := mangle_name (t_name t cls pid) pid 22 in
  match p with
  | PData f d => do d <- copy_data d ;; Ok (PData f (Some d))
  | PStream d n c => do _ <- copy_data d ;; copy_stream (t_name t) cls pid c
  | PRef d n o =>
    do _ <- copy_data d ;;
    match o with
    | None => Err GenericError
    | Some o =>
      do c <- rec o ;;
      let m := mangle_name (t_name t cls pid) pid 32 in
      do e <- encode_utf16le m ;; Ok (PRef (Some e) (Some m) (Some c))
    end
  | PVec d n next last items =>
    do d <- copy_data d ;;
    do cs <- all_of (fun x => rec (snd x)) items ;;
    match cs with
    | [] => Ok (PVec (Some d) None 0 4294967295 [])
    | _ => do e <- encode_utf16le ref22 ;; Ok (PVec (Some e) (Some ref22) (zlen cs) 4294967295 (combine (zseq 0 (zlen cs)) cs))
    end
  | PSet d n next last kpid ksize items =>
    do d <- copy_data d ;;
    do cs <- all_of (fun x => do c <- rec (snd (snd x)) ;; Ok (fst x, c)) items ;;
    match cs with
    | [] => Ok (PSet (Some d) None 0 4294967295 None None [])
    | _ => do e <- encode_utf16le ref22 ;;
           Ok (PSet (Some e) (Some ref22) (zlen cs) 4294967295 (Some (fst (t_key t cls pid))) (Some (snd (t_key t cls pid)))
                 (map (fun x => (fst (snd x), (fst x, snd (snd x)))) (combine (zseq 0 (zlen cs)) cs)))
    end
  | PWeak f d index kpid ksize ref =>
    do _ <- copy_data d ;;
    match ref with
    | None => Err GenericError
    | Some r =>
      do e <- weak_encode (t_index t cls pid) (fst (t_key t cls pid)) r ;;
      Ok (PWeak f (Some e) (Some (t_index t cls pid)) (Some (fst (t_key t cls pid))) (Some (snd (t_key t cls pid))) (Some r))
    end
  | PWeaks f d n index kpid ksize refs =>
    do d <- copy_data d ;;
    guard forallb (t_has t cls pid) refs else AssertionError ;;
    match refs with
    | [] => Ok (PWeaks f (Some d) None None None None [])
    | _ => do e <- encode_utf16le ref22 ;;
           Ok (PWeaks f (Some e) (Some ref22) (Some (t_index t cls pid)) (Some (fst (t_key t cls pid))) (Some (snd (t_key t cls pid))) refs)
    end
  end.
(** core.py:249-280 with another root. The class definition is registered there first (C61); a second
    property with the same new pid replaces the first. *)
Fixpoint copy_to (t : target) (o : obj) : result obj :=
  match o with
  | Obj cls props =>
    do ps <- all_of (fun x =>
        do q <- new_pid t cls (fst x) ;; do p <- copy_prop_to t (copy_to t) cls q (snd x) ;; Ok (q, p)) props ;;
    Ok (Obj cls (dict_of Z.eqb [] ps))
  end.
