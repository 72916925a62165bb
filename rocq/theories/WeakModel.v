(** Weak references: setting them and finding the objects they refer to
    (properties.py:990-1254, file.py:281-304). The objects are those of TreeModel, the definitions those of
    MetaModel. What a call that raises has changed before is not shown. *)
From Verif Require Import Base Codec Text IdsModel TypesModel ObjModel TimelineModel MetaModel TreeModel.
From Coq Require Import ZArith List Bool String.
Import ListNotations.
Open Scope Z_scope.

(** properties.py:49-50 *)
Definition CLASSDEF : Z := 0x0d01010101010100060e2b3402060101.
(** properties.py:50 *)
Definition TYPEDEF : Z := 0x0d01010102030000060e2b3402060101.

(** file.py:286 list[i] for an index read from two bytes or counted: never negative *)
Definition item {A} (l : list A) (i : Z) : result A := match znth l i with Some x => Ok x | None => Err IndexError end.
(** file.py:290, 293 root.property_entries[pid] *)
Definition entry_at (o : obj) (pid : Z) : result prop :=
  let 'Obj _ props := o in match dict_get Z.eqb props pid with Some p => Ok p | None => Err KeyError end.
(** file.py:289-291 p.value, whose property_entries are used next: None and lists have none *)
Definition object_of (p : prop) : result obj := match p with PRef _ _ (Some o) => Ok o | _ => Err GenericError end.
(** file.py:285-294 the loop of weakref_prop over the path: all but the last lead to objects *)
Fixpoint follow (o : obj) (path : list Z) : result prop :=
  match path with
  | [] => Err IndexError
  | [pid] => entry_at o pid
  | pid :: r => do p <- entry_at o pid ;; do c <- object_of p ;; follow c r
  end.
(** file.py:285-294 weakref_prop *)
Definition weakref_prop (root : obj) (table : list (list Z)) (index : Z) : result prop :=
  do path <- item table index ;; follow root path.
(** properties.py:846-850 p[ref] of a strong reference set. Simplification: the other kinds of property,
    that no built-in path leads to, are refused. *)
Definition member (p : prop) (ref : list Z) : result obj :=
  match p with
  | PSet _ _ _ _ _ _ items => match dict_get zlist_eqb items ref with Some x => Ok (snd x) | None => Err KeyError end
  | _ => Err TypeError
  end.
(** file.py:281-283 resovle_weakref *)
Definition resolve_ref (root : obj) (table : list (list Z)) (index : Z) (ref : list Z) : result obj :=
  do p <- weakref_prop root table index ;; member p ref.

(** What a weak reference leads to: definitions are found in the meta dictionary *)
Inductive found := FClass (c : option cdef) | FType (t : option tdef) | FObj (o : obj).
(** properties.py:990-997 resolve_weakref for a reference to objects of class [c]; without an index
    (None) there is no element of the table *)
Definition resolve (m : meta) (root : obj) (table : list (list Z)) (c : Z) (index : option Z) (ref : list Z) : result found :=
  if c =? CLASSDEF then Ok (FClass (class_of m (auid_int ref)))
  else if c =? TYPEDEF then Ok (FType (type_of m (auid_int ref)))
  else match index with
       | None => Err TypeError
       | Some i => do o <- resolve_ref root table i ref ;; Ok (FObj o)
       end.

(** An object a reference is set to: its class, whether it is of the same file, and its unique key *)
Record target := Target { g_class : cdef; g_here : bool; g_key : list Z }.

Section Code.
(** bound for the nesting of types *)
Variable fuel : nat.

(** types.py:193-195 pid_path *)
Definition pid_path (m : meta) (t : tdef) : result (list Z) :=
  match t_kind t with
  | KWeak _ path => do l <- propertydef_path fuel m path ;; Ok (map (fun x => p_pid (snd x)) l)
  | _ => Err GenericError
  end.
(** properties.py:1061-1063, 1174-1176 ref_classdef, then an attribute of it *)
Definition needed (c : result (option cdef)) : result cdef :=
  do c <- c ;; match c with Some c => Ok c | None => Err GenericError end.
(** properties.py:1086-1091, 1225-1230: what is not known yet of the target. Simplification: extend takes the
    index first, which only matters for which exception comes first. *)
Definition complete (m : meta) (c : cdef) (path : result (list Z)) (table : list (list Z)) (index kpid ksize : option Z)
    : result (list (list Z) * Z * option Z * option Z) :=
  do kpid <- match kpid with Some _ => Ok kpid | None => unique_key_pid m c end ;;
  do ksize <- match ksize with Some _ => Ok ksize | None => do s <- unique_key_size m c ;; Ok (Some s) end ;;
  match index with
  | Some i => Ok (table, i, kpid, ksize)
  | None => do path <- path ;; let '(table, i) := weakref_index table path in Ok (table, i, kpid, ksize)
  end.

(** properties.py:1074-1095 the value setter of WeakRefProperty, of type [t], for an object *)
Definition set_weak (m : meta) (t : tdef) (table : list (list Z)) (p : prop) (v : target) : result (prop * list (list Z)) :=
  match p with
  | PWeak f _ index kpid ksize _ =>
    do c <- needed (ref_classdef fuel m t) ;;
    do b <- isinstance m c (g_class v) ;;
    guard b else AssertionError ;;
    guard g_here v else AttachError ;;
    do (table, i, kpid, ksize) <- complete m c (pid_path m t) table index kpid ksize ;;
    do k <- num kpid ;;
    do d <- weak_encode i k (g_key v) ;;
    Ok (PWeak f (Some d) (Some i) kpid ksize (Some (g_key v)), table)
  | _ => Err GenericError
  end.
(** properties.py:1065-1067 value of WeakRefProperty; without a reference nothing is found *)
Definition get_weak (m : meta) (t : tdef) (root : obj) (table : list (list Z)) (p : prop) : result found :=
  match p with
  | PWeak _ _ index _ _ (Some ref) => do c <- needed (ref_classdef fuel m t) ;; resolve m root table (c_auid c) index ref
  | _ => Err GenericError
  end.

(** The argument of extend: a collection, or an iterator, which gives its elements once *)
Inductive given := Collection (l : list target) | Iterator (l : list target).
(** properties.py:1214 for item in values, the first time *)
Definition first_pass (g : given) : list target := match g with Collection l | Iterator l => l end.
(** properties.py:1232 for item in values, the second time *)
Definition second_pass (g : given) : list target := match g with Collection l => l | Iterator _ => [] end.

(** types.py:412-415, 483-486 element_typedef of a variable array or a set *)
Definition element_type (m : meta) (t : tdef) : result tdef :=
  match t_kind t with
  | KVar el | KSet el => match type_of m el with Some e => Ok e | None => Err GenericError end
  | _ => Err GenericError
  end.
(** properties.py:1209-1235 WeakRefArrayProperty.extend, of type [t] and property name [name] *)
Definition extend_weak (m : meta) (t : tdef) (name : list Z) (pid : Z) (table : list (list Z)) (p : prop) (g : given)
    : result (prop * list (list Z)) :=
  match p with
  | PWeaks f d n index kpid ksize refs =>
    do e <- element_type m t ;;
    do c <- needed (ref_classdef fuel m e) ;;
    do _ <- each (fun v _ => do b <- isinstance m c (g_class v) ;; guard b else TypeError ;; guard g_here v else AttachError ;; Ok tt) (first_pass g) tt ;;
    do (d, n) <- match n with
                 | Some _ => Ok (d, n)
                 | None => let s := mangle_name name pid 22 in do e <- encode_utf16le s ;; Ok (Some e, Some s)
                 end ;;
    do (table, i, kpid, ksize) <- complete m c (pid_path m e) table index kpid ksize ;;
    Ok (PWeaks f d n (Some i) kpid ksize (refs ++ map g_key (second_pass g)), table)
  | _ => Err GenericError
  end.
(** properties.py:1240-1242 clear *)
Definition clear_weak (p : prop) : prop :=
  match p with PWeaks f d n index kpid ksize _ => PWeaks f d n index kpid ksize [] | p => p end.
(** properties.py:1248-1256 value setter for objects *)
Definition assign_weak (m : meta) (t : tdef) (name : list Z) (pid : Z) (table : list (list Z)) (p : prop) (g : given)
    : result (prop * list (list Z)) := extend_weak m t name pid table (clear_weak p) g.
(** properties.py:1188-1191, 1244-1246 list(p), value of WeakRefArrayProperty *)
Definition get_weaks (m : meta) (t : tdef) (root : obj) (table : list (list Z)) (p : prop) : result (list found) :=
  match p with
  | PWeaks _ _ _ index _ _ refs =>
    all_of (fun ref => do e <- element_type m t ;; do c <- needed (ref_classdef fuel m e) ;; resolve m root table (c_auid c) index ref) refs
  | _ => Err GenericError
  end.
(** properties.py:1193-1202 p[key] *)
Definition item_weak (m : meta) (t : tdef) (root : obj) (table : list (list Z)) (p : prop) (key : list Z) : result found :=
  match p with
  | PWeaks _ _ _ index _ _ refs =>
    if existsb (zlist_eqb key) refs then
      do e <- element_type m t ;; do c <- needed (ref_classdef fuel m e) ;; resolve m root table (c_auid c) index key
    else Err KeyError
  | _ => Err GenericError
  end.
End Code.
