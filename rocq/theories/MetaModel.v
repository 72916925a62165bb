(** The meta dictionary: class, property and type definitions, src/aaf2/metadict.py, the definitions'
    own attributes in src/aaf2/types.py, and the property lookups of src/aaf2/core.py and
    src/aaf2/properties.py that go through them.
    Identifiers (AUIDs) are numbers, names are strings (their UTF-16 storage is in TypesModel), a
    definition object is a place in a heap, so that two dictionaries can hold the same object.
    Attribute access on None (AttributeError) is [GenericError]. The strong reference sets that
    store the definitions in the file are represented by their keys; their indices are in ObjModel. *)
From Verif Require Import Base Codec Text TypesModel IdsModel TimelineModel.
From Coq Require Import ZArith List Bool String.
Import ListNotations.
Open Scope Z_scope.

(** ** Definitions *)

(** A row of a class table, src/aaf2/model/classdefs.py: name, identifier, property id (None: chosen
    on registration), type, optional, unique *)
Record prow := PRow { pr_name : string; pr_auid : Z; pr_pid : option Z; pr_type : Z; pr_opt : bool; pr_uniq : bool }.
(** src/aaf2/model/classdefs.py:2: name, identifier, parent, concrete, properties *)
Record crow := CRow { cr_name : string; cr_auid : Z; cr_parent : option Z; cr_conc : bool; cr_props : list prow }.

(** metadict.py:34-124 PropertyDef: the stored properties Name, Identification, LocalIdentification,
    Type, IsOptional, IsUniqueIdentifier *)
Record pdef := PDef { p_name : string; p_auid : Z; p_pid : Z; p_type : Z; p_opt : bool; p_uniq : bool }.
(** metadict.py:127-145 ClassDef: Name, Identification, ParentClass, IsConcrete, the set Properties
    in the order of its keys, and the Python dictionary propertydef_by_pid *)
Record cdef := CDef { c_name : string; c_auid : Z; c_parent : Z; c_conc : bool;
                      c_props : list (Z * pdef); c_bypid : list (Z * pdef) }.

(** types.py: what each kind of type definition stores. [KGenChar size pid]: types.py:912-931 stores
    the size under a property id chosen on registration; in the tables the id is 0. *)
Inductive tkind : Type :=
| KInt (size : Z) (signed : bool) | KEnum (el : Z) (items : list (Z * string)) | KRec (fields : list (string * Z))
| KFixed (el count : Z) | KVar (el : Z) | KRename (el : Z) | KString (el : Z) | KStream | KOpaque
| KExt (items : list (Z * string)) | KChar | KGenChar (size pid : Z) | KIndirect | KSet (el : Z)
| KStrong (cls : Z) | KWeak (cls : Z) (path : list Z).
(** types.py:29-72 TypeDef: Name, Identification and the rest by kind *)
Record tdef := TDef { t_name : string; t_auid : Z; t_kind : tkind }.

(** metadict.py:319-338 MetaDictionary: the class objects, classdefs_by_name, classdefs_by_auid, the
    keys of ClassDefinitions, the type objects, typedefs_by_name, typedefs_by_auid, the keys of
    TypeDefinitions, and (next_pid, local_pids) *)
Record meta := Meta { m_heap : list cdef; m_cname : list (string * nat); m_cauid : list (Z * nat); m_cset : list Z;
                      m_theap : list tdef; m_tname : list (string * nat); m_tauid : list (Z * nat); m_tset : list Z;
                      m_pids : Z * list Z }.

(** metadict.py:327-338: before anything is registered *)
Definition meta0 : meta := Meta [] [] [] [] [] [] [] [] (65535, []).

(** replacing one object of a heap (attribute assignment on a shared object) *)
Fixpoint upd_nth {A} (l : list A) (n : nat) (x : A) : list A :=
  match l, n with [], _ => [] | _ :: t, O => x :: t | y :: t, S n => y :: upd_nth t n x end.

(** d[k] on the dictionaries by name and by identifier *)
Definition sget (d : list (string * nat)) (k : string) : option nat := dict_get String.eqb d k.
(** d.get(k) by identifier *)
Definition zget {V} (d : list (Z * V)) (k : Z) : option V := dict_get Z.eqb d k.
(** d[k] = v by name *)
Definition sset (d : list (string * nat)) (k : string) (v : nat) := dict_set String.eqb d k v.
(** d[k] = v by identifier *)
Definition zset {V} (d : list (Z * V)) (k : Z) (v : V) := dict_set Z.eqb d k v.
(** a key of a set property: properties.py:1398-1412 add2set keeps the place of a key it has *)
Definition add_key (l : list Z) (k : Z) : list Z := if existsb (Z.eqb k) l then l else l ++ [k].

(** ** Lookups *)

(** metadict.py:535-541 lookup_classdef by identifier, 223 classdefs_by_auid.get *)
Definition class_of (m : meta) (a : Z) : option cdef :=
  match zget (m_cauid m) a with Some h => nth_error (m_heap m) h | None => None end.
(** metadict.py:535-541 lookup_classdef by name *)
Definition class_named (m : meta) (n : string) : option cdef :=
  match sget (m_cname m) n with Some h => nth_error (m_heap m) h | None => None end.
(** metadict.py:526-533 lookup_typedef by identifier *)
Definition type_of (m : meta) (a : Z) : option tdef :=
  match zget (m_tauid m) a with Some h => nth_error (m_theap m) h | None => None end.
(** metadict.py:526-533 lookup_typedef by name *)
Definition type_named (m : meta) (n : string) : option tdef :=
  match sget (m_tname m) n with Some h => nth_error (m_theap m) h | None => None end.

(** metadict.py:216-223 parent: a class that is its own parent has none *)
Definition parent (m : meta) (c : cdef) : option cdef :=
  if c_parent c =? c_auid c then None else class_of m (c_parent c).
(** metadict.py:269-273 relatives: the class and its ancestors; a cycle never ends *)
Fixpoint relatives_go (fuel : nat) (m : meta) (c : cdef) : result (list cdef) :=
  match fuel with
  | O => Err OutOfFuel
  | S fuel => match parent m c with
              | None => Ok [c]
              | Some p => do l <- relatives_go fuel m p ;; Ok (c :: l)
              end
  end.
(** a chain without a cycle is no longer than the number of class objects and the class itself *)
Definition relatives (m : meta) (c : cdef) : result (list cdef) := relatives_go (S (S (List.length (m_heap m)))) m c.

(** metadict.py:226-229 propertydefs, 275-283 all_propertydefs *)
Definition props (c : cdef) : list pdef := map snd (c_props c).
(** metadict.py:275-283 all_propertydefs *)
Definition all_propertydefs (m : meta) (c : cdef) : result (list pdef) :=
  do l <- relatives m c ;; Ok (flat_map props l).

(** the first class of the chain whose dictionary has the key *)
Fixpoint first_in (sel : cdef -> list (Z * pdef)) (k : Z) (l : list cdef) : option pdef :=
  match l with
  | [] => None
  | c :: t => match zget (sel c) k with Some p => Some p | None => first_in sel k t end
  end.
(** metadict.py:231-235 lookup_propertydef *)
Definition lookup_propertydef (m : meta) (c : cdef) (a : Z) : result (option pdef) :=
  do l <- relatives m c ;; Ok (first_in c_props a l).
(** metadict.py:285-296 get_propertydef_from_pid *)
Definition get_propertydef_from_pid (m : meta) (c : cdef) (pid : Z) : result (option pdef) :=
  do l <- relatives m c ;; Ok (first_in c_bypid pid l).
(** properties.py:102-121 Property.propertydef, without its cache *)
Definition propertydef (m : meta) (c : cdef) (pid : Z) : result (option pdef) :=
  do r <- get_propertydef_from_pid m c pid ;;
  match r with
  | Some p => Ok (Some p)
  | None => do l <- all_propertydefs m c ;; Ok (find (fun p => p_pid p =? pid) l)
  end.

(** metadict.py:193-201 isinstance: [self] is the other class or one of its ancestors *)
Definition isinstance (m : meta) (self other : cdef) : result bool :=
  if c_auid self =? c_auid other then Ok true
  else do l <- relatives m other ;; Ok (existsb (fun c => c_auid c =? c_auid self) l).

(** metadict.py:182, 187, 188: Parameter, Mob, EssenceData *)
Definition PARAMETER : Z := 0x0d01010101013c00060e2b3402060101.
(** metadict.py:187 *)
Definition MOB : Z := 0x0d01010101013400060e2b3402060101.
(** metadict.py:188 *)
Definition ESSENCEDATA : Z := 0x0d01010101012300060e2b3402060101.
(** metadict.py:174-183 unique_key_pid; None is no key *)
Definition unique_key_pid (m : meta) (c : cdef) : result (option Z) :=
  do l <- all_propertydefs m c ;;
  match find p_uniq l with
  | Some p => Ok (Some (p_pid p))
  | None => match class_of m PARAMETER with
            | None => Err GenericError
            | Some q => do b <- isinstance m c q ;; Ok (if b then Some 0x1B01 else None)
            end
  end.
(** metadict.py:185-191 unique_key_size *)
Definition unique_key_size (m : meta) (c : cdef) : result Z :=
  match class_of m MOB with
  | None => Err GenericError
  | Some mob =>
      do b <- isinstance m c mob ;;
      if b then Ok 32
      else match class_of m ESSENCEDATA with
           | None => Err GenericError
           | Some e => do b <- isinstance m c e ;; Ok (if b then 32 else 16)
           end
  end.

(** ** Registration *)

(** assignment to an attribute of the class object at [h] *)
Definition with_class (m : meta) (h : nat) (c : cdef) : meta :=
  Meta (upd_nth (m_heap m) h c) (m_cname m) (m_cauid m) (m_cset m) (m_theap m) (m_tname m) (m_tauid m) (m_tset m) (m_pids m).
(** assignment to next_pid and local_pids *)
Definition with_pids (m : meta) (p : Z * list Z) : meta :=
  Meta (m_heap m) (m_cname m) (m_cauid m) (m_cset m) (m_theap m) (m_tname m) (m_tauid m) (m_tset m) p.

(** metadict.py:237-267 register_propertydef, the type given by its identifier. A property id that
    does not fit two bytes is refused by encode_u16le (utils.py:90). *)
Definition register_propertydef (m : meta) (h : nat) (r : prow) : result meta :=
  match nth_error (m_heap m) h with
  | None => Err GenericError
  | Some c =>
      match zget (c_props c) (pr_auid r) with
      | Some _ => Ok m
      | None =>
          do x <- (match pr_pid r with
                   | Some pid => Ok (pid, m_pids m)
                   | None => next_free_pid (m_pids m)
                   end) ;;
          let pid := fst x in
          guard ((0 <=? pid) && (pid <=? 65535)) else StructError ;;
          let p := PDef (pr_name r) (pr_auid r) pid (pr_type r) (pr_opt r) (pr_uniq r) in
          Ok (with_pids (with_class m h (CDef (c_name c) (c_auid c) (c_parent c) (c_conc c)
                (zset (c_props c) (pr_auid r) p) (zset (c_bypid c) pid p))) (snd x))
      end
  end.

(** metadict.py:419-430: the loop over the properties given to register_classdef: an id is chosen or
    claimed before register_propertydef is called *)
Definition register_prop (m : meta) (h : nat) (r : prow) : result meta :=
  do x <- (match pr_pid r with
           | None => next_free_pid (m_pids m)
           | Some pid => do s <- claim_pid (m_pids m) pid ;; Ok (pid, s)
           end) ;;
  register_propertydef (with_pids m (snd x)) h
    (PRow (pr_name r) (pr_auid r) (Some (fst x)) (pr_type r) (pr_opt r) (pr_uniq r)).
(** metadict.py:420-430: the loop over the properties of a class *)
Fixpoint register_props (m : meta) (h : nat) (l : list prow) : result meta :=
  match l with [] => Ok m | r :: t => do m <- register_prop m h r ;; register_props m h t end.

(** metadict.py:412-417: the class object a registration works on. Line 415 looks the identifier up
    among the names, which always fails. *)
Definition class_place (m : meta) (name : string) (auid : Z) (par : option Z) (conc : bool) : result (meta * nat) :=
  match sget (m_cname m) name with
  | Some h => Ok (m, h)
  | None =>
      match zget (m_cauid m) auid with
      | Some _ => Err KeyError
      | None =>
          let c := CDef name auid (match par with Some p => p | None => auid end) conc [] [] in
          Ok (Meta (m_heap m ++ [c]) (m_cname m) (m_cauid m) (m_cset m) (m_theap m) (m_tname m) (m_tauid m) (m_tset m) (m_pids m),
              List.length (m_heap m))
      end
  end.
(** metadict.py:432-437: the class is entered in the dictionaries and the stored set *)
Definition enter_class (m : meta) (name : string) (h : nat) : result meta :=
  match nth_error (m_heap m) h with
  | None => Err GenericError
  | Some c =>
      Ok (Meta (m_heap m) (sset (m_cname m) name h) (zset (m_cauid m) (c_auid c) h)
            (if String.eqb (c_name c) "Root" then m_cset m else add_key (m_cset m) (c_auid c))
            (m_theap m) (m_tname m) (m_tauid m) (m_tset m) (m_pids m))
  end.
(** metadict.py:398-438 register_classdef, the parent given by its identifier or None *)
Definition register_classdef (m : meta) (r : crow) : result meta :=
  do x <- class_place m (cr_name r) (cr_auid r) (cr_parent r) (cr_conc r) ;;
  do m1 <- register_props (fst x) (snd x) (cr_props r) ;;
  enter_class m1 (cr_name r) (snd x).
(** metadict.py:340-344, 390-391 *)
Fixpoint register_classes (m : meta) (l : list crow) : result meta :=
  match l with [] => Ok m | r :: t => do m <- register_classdef m r ;; register_classes m t end.
(** metadict.py:346-347, 393-394 *)
Definition register_alias (m : meta) (a : string * string) : result meta :=
  match sget (m_cname m) (snd a) with
  | None => Err KeyError
  | Some h => Ok (Meta (m_heap m) (sset (m_cname m) (fst a) h) (m_cauid m) (m_cset m) (m_theap m) (m_tname m) (m_tauid m) (m_tset m) (m_pids m))
  end.
(** metadict.py:346-347, 393-394: the loop *)
Fixpoint register_aliases (m : meta) (l : list (string * string)) : result meta :=
  match l with [] => Ok m | a :: t => do m <- register_alias m a ;; register_aliases m t end.

(** ** Types *)

(** types.py:915 the class and 920, 940 the property that holds the size of a generic character *)
Definition GENERICCHAR : Z := 0x0e04010100000000060e2b3402060101.
(** types.py:920, 940 *)
Definition CHARSIZE : Z := 0x0e04010101010111060e2b3401010101.
(** types.py:915-923, 937-943: the id of that property, the last one found *)
Definition char_size_pid (m : meta) : result Z :=
  match class_of m GENERICCHAR with
  | None => Err GenericError
  | Some c =>
      do l <- all_propertydefs m c ;;
      match find (fun p => p_auid p =? CHARSIZE) (rev l) with
      | None => Err AssertionError
      | Some p => guard (negb (p_pid p =? 0)) else AssertionError ;; Ok (p_pid p)
      end
  end.
(** types.py: the constructors; only the generic character looks at the registered classes *)
Definition new_type (m : meta) (t : tdef) : result tdef :=
  match t_kind t with
  | KGenChar size _ => do pid <- char_size_pid m ;; Ok (TDef (t_name t) (t_auid t) (KGenChar size pid))
  | _ => Ok t
  end.
(** types.py:263-281 TypeDefEnum.register_element and 807-826 TypeDefExtEnum.register_element on the
    elements: nothing happens if the value or the name is there; an enumeration is sorted by value *)
Fixpoint insert_val (x : Z * string) (l : list (Z * string)) : list (Z * string) :=
  match l with [] => [x] | y :: t => if fst x <? fst y then x :: y :: t else y :: insert_val x t end.
(** sorted() of pairs by value *)
Fixpoint sort_vals (l : list (Z * string)) : list (Z * string) :=
  match l with [] => [] | x :: t => insert_val x (sort_vals t) end.
(** types.py:263-281, 807-826: one element *)
Definition add_element (sorted : bool) (l : list (Z * string)) (x : Z * string) : list (Z * string) :=
  if existsb (fun y => (fst y =? fst x) || String.eqb (snd y) (snd x)) l then l
  else (if sorted then sort_vals l else l) ++ [x].
(** types.py:263-281, 807-826: several *)
Definition add_elements (sorted : bool) (l new : list (Z * string)) : list (Z * string) :=
  fold_left (add_element sorted) new l.

(** metadict.py:382-383, 368: a type object enters the dictionaries and the stored set *)
Definition enter_type (m : meta) (name : string) (h : nat) (auid : Z) : meta :=
  Meta (m_heap m) (m_cname m) (m_cauid m) (m_cset m) (m_theap m) (sset (m_tname m) name h) (zset (m_tauid m) auid h)
    (add_key (m_tset m) auid) (m_pids m).
(** a new type object in memory (no counterpart in the code) *)
Definition push_type (m : meta) (t : tdef) : meta :=
  Meta (m_heap m) (m_cname m) (m_cauid m) (m_cset m) (m_theap m ++ [t]) (m_tname m) (m_tauid m) (m_tset m) (m_pids m).
(** a change of the type object at [h] *)
Definition with_type (m : meta) (h : nat) (t : tdef) : meta :=
  Meta (m_heap m) (m_cname m) (m_cauid m) (m_cset m) (upd_nth (m_theap m) h t) (m_tname m) (m_tauid m) (m_tset m) (m_pids m).
(** metadict.py:358-384: one entry of a type table. An enumeration whose name is known gets the
    missing elements; any other type replaces the one of that name. *)
Definition register_type (m : meta) (t : tdef) : result meta :=
  match t_kind t, sget (m_tname m) (t_name t) with
  | KExt new, Some h =>
      match nth_error (m_theap m) h with
      | Some (TDef n a (KExt old)) => Ok (enter_type (with_type m h (TDef n a (KExt (add_elements false old new)))) (t_name t) h a)
      | _ => Err GenericError
      end
  | KEnum _ new, Some h =>
      match nth_error (m_theap m) h with
      | Some (TDef n a (KEnum el old)) => Ok (enter_type (with_type m h (TDef n a (KEnum el (add_elements true old new)))) (t_name t) h a)
      | _ => Err GenericError
      end
  | _, _ => do t' <- new_type m t ;; Ok (enter_type (push_type m t') (t_name t) (List.length (m_theap m)) (t_auid t))
  end.
(** metadict.py:353-384 register_typedef_model *)
Fixpoint register_types (m : meta) (l : list tdef) : result meta :=
  match l with [] => Ok m | t :: r => do m <- register_type m t ;; register_types m r end.

(** types.py: the element type a definition refers to *)
Definition element (k : tkind) : option Z :=
  match k with
  | KEnum el _ | KFixed el _ | KVar el | KString el | KSet el => Some el
  | _ => None
  end.
(** types.py:149, 184, 417-419, 489-491 ref_classdef: the class a type refers to, through the element
    types; the other kinds have no such attribute *)
Fixpoint ref_classdef (fuel : nat) (m : meta) (t : tdef) : result (option cdef) :=
  match fuel with
  | O => Err OutOfFuel
  | S fuel =>
      match t_kind t with
      | KStrong c | KWeak c _ => Ok (class_of m c)
      | KVar el | KSet el => match type_of m el with None => Err GenericError | Some e => ref_classdef fuel m e end
      | _ => Err GenericError
      end
  end.
(** properties.py:33-40 *)
Definition SF_DATA : Z := 0x82.
(** properties.py:34 *)
Definition SF_DATA_STREAM : Z := 0x42.
(** properties.py:35 *)
Definition SF_STRONG : Z := 0x22.
(** properties.py:36 *)
Definition SF_STRONG_VECTOR : Z := 0x32.
(** properties.py:37 *)
Definition SF_STRONG_SET : Z := 0x3A.
(** properties.py:38 *)
Definition SF_WEAK : Z := 0x02.
(** properties.py:39 *)
Definition SF_WEAK_VECTOR : Z := 0x12.
(** properties.py:40 *)
Definition SF_WEAK_SET : Z := 0x1A.
(** types.py:69-71, 152-154, 180-182, 403-410, 493-502, 560-562 store_format *)
Fixpoint store_format (fuel : nat) (m : meta) (t : tdef) : result Z :=
  match fuel with
  | O => Err OutOfFuel
  | S fuel =>
      match t_kind t with
      | KStrong _ => Ok SF_STRONG
      | KWeak _ _ => Ok SF_WEAK
      | KStream => Ok SF_DATA_STREAM
      | KVar el =>
          match type_of m el with
          | None => Err GenericError
          | Some e => do f <- store_format fuel m e ;;
              Ok (if f =? SF_WEAK then SF_WEAK_VECTOR else if f =? SF_STRONG then SF_STRONG_VECTOR else SF_DATA)
          end
      | KSet el =>
          match type_of m el with
          | None => Err GenericError
          | Some e => do f <- store_format fuel m e ;;
              if f =? SF_STRONG then Ok SF_STRONG_SET else if f =? SF_WEAK then Ok SF_WEAK_SET
              else if f =? SF_DATA then Ok SF_DATA else Err PropertyError
          end
      | _ => Ok SF_DATA
      end
  end.
(** types.py:201-217 propertydef_path: the target set's path, from the class Root, through the
    properties of each class itself (not its ancestors) *)
Fixpoint path_from (fuel : nat) (m : meta) (c : option cdef) (path : list Z) : result (list (cdef * pdef)) :=
  match path with
  | [] => Ok []
  | a :: r =>
      match c with
      | None => Err GenericError
      | Some c =>
          match find (fun p => p_auid p =? a) (props c) with
          | None => Err PropertyError
          | Some p =>
              match type_of m (p_type p) with
              | None => Err GenericError
              | Some t => do c' <- ref_classdef fuel m t ;; do l <- path_from fuel m c' r ;; Ok ((c, p) :: l)
              end
          end
      end
  end.
(** types.py:201-217 propertydef_path, from the class Root *)
Definition propertydef_path (fuel : nat) (m : meta) (path : list Z) : result (list (cdef * pdef)) :=
  path_from fuel m (class_named m "Root") path.

(** types.py:560-565 the identifiers of the records treated specially *)
Definition rkind_of (a : Z) : rkind :=
  if a =? 0x0103020000000000060e2b3401040101 then RMob
  else if a =? 0x0103010000000000060e2b3401040101 then RAuid
  else if a =? 0x0301060000000000060e2b3401040101 then RTime
  else if a =? 0x0301050000000000060e2b3401040101 then RDate
  else if a =? 0x0301070000000000060e2b3401040101 then RStamp
  else if a =? 0x0301010000000000060e2b3401040101 then RRat else RPlain.
(** types.py:285 the Boolean enumeration *)
Definition BOOLEAN : Z := 0x0104010000000000060e2b3401040101.
(** auid.py:79-101 AUID(int=a).bytes_le: the identifier with this number *)
Definition auid_bytes (a : Z) : list Z := swap_fields (be_bytes 16 a).
(** What encode, decode and byte_size of a type definition use, as a type of TypesModel: the
    definitions it refers to by identifier are looked up (types.py:259-261, 333-335, 412-415, 484-487,
    758-760), the members of a record by the name of their type (types.py:608-615, 619, 643, 735).
    The kinds that are not plain values (streams, references, indirect and opaque values, generic
    characters) have no such type. *)
Fixpoint typ_in (fuel : nat) (m : meta) (t : tdef) : result typ :=
  match fuel with
  | O => Err OutOfFuel
  | S fuel =>
      let at_ := fun a => match type_of m a with None => Err GenericError | Some e => typ_in fuel m e end in
      match t_kind t with
      | KInt size sg => Ok (TInt size sg)
      | KEnum el items =>
          do e <- at_ el ;;
          do x <- enum_new (map (fun i => (fst i, codes (snd i))) items) ;;
          Ok (TEnum (t_auid t =? BOOLEAN) e (fst x) (snd x))
      | KRec fields =>
          do l <- (fix go (l : list (string * Z)) : result (list (list Z * typ)) :=
             match l with
             | [] => Ok []
             | (n, a) :: r =>
                 match type_of m a with
                 | None => Err GenericError
                 | Some e => match type_named m (t_name e) with
                             | None => Err GenericError
                             | Some e' => do x <- typ_in fuel m e' ;; do y <- go r ;; Ok ((codes n, x) :: y)
                             end
                 end
             end) fields ;;
          Ok (TRec (rkind_of (t_auid t)) l)
      | KFixed el n => do e <- at_ el ;; Ok (TFixed e n)
      | KVar el => do e <- at_ el ;; Ok (TVar e)
      | KSet el => do e <- at_ el ;; Ok (TSet e)
      | KRename el => do e <- at_ el ;; Ok (TRename e)
      | KString _ => Ok TString
      | KExt items =>
          do x <- ext_new (map (fun i => (auid_bytes (fst i), codes (snd i))) items) ;;
          Ok (TExtEnum (fst x) (snd x))
      | KChar => Ok (TChar (String.eqb (t_name t) "Character"))
      | _ => Err NotImplemented
      end
  end.

(** ** Copying definitions into another file *)

(** types.py: the class of each kind of type definition and its name in the code *)
Definition kind_class (k : tkind) : Z * string :=
  match k with
  | KInt _ _ => (0x0d01010102040000060e2b3402060101, "TypeDefInt")
  | KStrong _ => (0x0d01010102050000060e2b3402060101, "TypeDefStrongRef")
  | KWeak _ _ => (0x0d01010102060000060e2b3402060101, "TypeDefWeakRef")
  | KEnum _ _ => (0x0d01010102070000060e2b3402060101, "TypeDefEnum")
  | KFixed _ _ => (0x0d01010102080000060e2b3402060101, "TypeDefFixedArray")
  | KVar _ => (0x0d01010102090000060e2b3402060101, "TypeDefVarArray")
  | KSet _ => (0x0d010101020a0000060e2b3402060101, "TypeDefSet")
  | KString _ => (0x0d010101020b0000060e2b3402060101, "TypeDefString")
  | KStream => (0x0d010101020c0000060e2b3402060101, "TypeDefStream")
  | KRec _ => (0x0d010101020d0000060e2b3402060101, "TypeDefRecord")
  | KRename _ => (0x0d010101020e0000060e2b3402060101, "TypeDefRename")
  | KExt _ => (0x0d01010102200000060e2b3402060101, "TypeDefExtEnum")
  | KIndirect => (0x0d01010102210000060e2b3402060101, "TypeDefIndirect")
  | KOpaque => (0x0d01010102220000060e2b3402060101, "TypeDefOpaque")
  | KChar => (0x0d01010102230000060e2b3402060101, "TypeDefCharacter")
  | KGenChar _ _ => (GENERICCHAR, "TypeDefGenericCharacter")
  end%string.
(** core.py:47-52 AAFObject.name of a type definition: the name of its class *)
Definition object_name (m : meta) (t : tdef) : string :=
  match class_of m (fst (kind_class (t_kind t))) with Some c => c_name c | None => snd (kind_class (t_kind t)) end.
(** the identifier of a definition that is looked up first: None.auid is an AttributeError *)
Definition type_auid (m : meta) (a : Z) : result Z := match type_of m a with None => Err GenericError | Some e => Ok (t_auid e) end.
(** the same for a class *)
Definition class_auid (m : meta) (a : Z) : result Z := match class_of m a with None => Err GenericError | Some c => Ok (c_auid c) end.
(** and for the fields of a record *)
Fixpoint types_auids (m : meta) (l : list (string * Z)) : result (list (string * Z)) :=
  match l with [] => Ok [] | (n, a) :: r => do a <- type_auid m a ;; do r <- types_auids m r ;; Ok ((n, a) :: r) end.
(** types.py:44-45, 91-92, 149-150, 177-178, 242-243, 329-330, 400-401, 480-481, 542-543, 594-597,
    754-755, 804-805, 932-933 copy into the file [dst]. The name passed is self.name, the name of the
    class. A set passes the element type itself where an identifier is expected (AUID(object), an
    AttributeError); a weak reference passes the names of the property definitions of its path
    where identifiers are expected: each is the name of the class PropertyDefinition, which is no
    identifier (ValueError). *)
Definition copy_typedef (fuel : nat) (src dst : meta) (t : tdef) : result tdef :=
  do k <- (match t_kind t with
     | KEnum el items => do a <- type_auid src el ;; Ok (KEnum a items)
     | KRec fields => do l <- types_auids src fields ;; Ok (KRec l)
     | KFixed el n => do a <- type_auid src el ;; Ok (KFixed a n)
     | KVar el => do a <- type_auid src el ;; Ok (KVar a)
     | KRename el => do a <- type_auid src el ;; Ok (KRename a)
     | KString el => do a <- type_auid src el ;; Ok (KString a)
     | KSet el => match type_of src el with None => Err TypeError | Some _ => Err GenericError end
     | KStrong c => do a <- class_auid src c ;; Ok (KStrong a)
     | KWeak c path =>
         do a <- class_auid src c ;;
         do l <- propertydef_path fuel src path ;;
         match l with [] => Ok (KWeak a []) | _ => Err ValueError end
     | k => Ok k
     end) ;;
  new_type dst (TDef (object_name src t) (t_auid t) k).

(** metadict.py:479-485: the elements the other file's enumeration has and this one lacks *)
Definition merge_elements (dst : meta) (t : tdef) : result meta :=
  match t_kind t with
  | KExt new | KEnum _ new =>
      match zget (m_tauid dst) (t_auid t) with
      | None => Err GenericError
      | Some h =>
          match nth_error (m_theap dst) h with
          | Some (TDef n a (KExt old)) => Ok (with_type dst h (TDef n a (KExt (add_elements false old new))))
          | Some (TDef n a (KEnum el old)) => Ok (with_type dst h (TDef n a (KEnum el (add_elements true old new))))
          | _ => Err GenericError
          end
      end
  | _ => Ok dst
  end.

(** metadict.py:475-476, 474: the copied type enters the dictionaries under its type_name *)
Definition enter_copy (dst : meta) (t : tdef) : meta :=
  enter_type (push_type dst t) (t_name t) (List.length (m_theap dst)) (t_auid t).

(** a loop over a list of steps that change the file *)
Fixpoint each {A} (f : meta -> A -> result meta) (l : list A) (m : meta) : result meta :=
  match l with [] => Ok m | x :: r => do m <- f m x ;; each f r m end.

(** metadict.py:440-487 register_external_typedef and 489-509 register_external_classdef. [src] is
    the file the definition belongs to, [dst] this one. The append to TypeDefinitions is taken to pass
    its class check. *)
Fixpoint external_type (fuel : nat) (src dst : meta) (t : tdef) : result meta :=
  match fuel with
  | O => Err OutOfFuel
  | S fuel =>
      do dst <- (match type_of dst (t_auid t) with
         | Some _ => Ok dst
         | None =>
             do dst <- (match t_kind t with
                | KStrong c | KWeak c _ =>
                    match class_of src c with None => Err GenericError | Some c => external_class fuel src dst c end
                | KFixed el _ | KVar el | KSet el | KString el | KEnum el _ | KRename el =>
                    match type_of src el with None => Ok dst | Some e => external_type fuel src dst e end
                | KRec fields =>
                    each (fun dst f => match type_of src (snd f) with None => Ok dst | Some e => external_type fuel src dst e end) fields dst
                | _ => Ok dst
                end) ;;
             do c <- copy_typedef fuel src dst t ;;
             Ok (enter_copy dst c)
         end) ;;
      merge_elements dst t
  end
with external_class (fuel : nat) (src dst : meta) (c : cdef) : result meta :=
  match fuel with
  | O => Err OutOfFuel
  | S fuel =>
      do chain <- relatives src c ;;
      each (fun dst c =>
        do x <- (match zget (m_cauid dst) (c_auid c) with
                 | Some h => Ok (dst, h)
                 | None =>
                     match parent src c with
                     | None => Err GenericError
                     | Some p =>
                         do dst <- register_classdef dst (CRow (c_name c) (c_auid c) (Some (c_auid p)) (c_conc c) []) ;;
                         match sget (m_cname dst) (c_name c) with None => Err GenericError | Some h => Ok (dst, h) end
                     end
                 end) ;;
        each (fun dst p =>
          match type_of src (p_type p) with
          | None => Err GenericError
          | Some t =>
              do dst <- external_type fuel src dst t ;;
              register_propertydef dst (snd x)
                (PRow (p_name p) (p_auid p) (if 32768 <=? p_pid p then None else Some (p_pid p)) (t_auid t) (p_opt p) (p_uniq p))
          end) (props c) (fst x)) (tl (rev chain)) dst
  end.

(** ** Objects and their properties *)

(** core.py:302-323 AAFObject.get on an object of class [c] whose property_entries have the ids
    [pids], in order: the id of the entry found, or the definition and stored format of a property the
    class has. core.py:25, 317: the parameters of an operation group are a set. *)
Inductive found : Type := Entry (pid : Z) | Fresh (p : pdef) (format : Z) | Missing.
(** core.py:25 *)
Definition OPERATIONGROUP_PARAMETERS : Z := 0x06010104060a0000060e2b3401010102.
(** core.py:302-323 AAFObject.get *)
Definition get_property (fuel : nat) (m : meta) (c : cdef) (pids : list Z) (key : string) : result found :=
  do e <- (fix go (l : list Z) : result (option Z) :=
     match l with
     | [] => Ok None
     | pid :: r =>
         do p <- propertydef m c pid ;;
         match p with
         | Some p => if String.eqb (p_name p) key then Ok (Some pid) else go r
         | None => go r
         end
     end) pids ;;
  match e with
  | Some pid => Ok (Entry pid)
  | None =>
      do l <- all_propertydefs m c ;;
      match find (fun p => String.eqb (p_name p) key) l with
      | None => Ok Missing
      | Some p =>
          match type_of m (p_type p) with
          | None => Err GenericError
          | Some t => do f <- store_format fuel m t ;;
                      Ok (Fresh p (if p_auid p =? OPERATIONGROUP_PARAMETERS then SF_STRONG_SET else f))
          end
      end
  end.
(** core.py:111-133 validate: the required properties an object with these ids lacks *)
Definition missing_properties (m : meta) (c : cdef) (pids : list Z) : result (list pdef) :=
  do l <- all_propertydefs m c ;;
  Ok (filter (fun p => negb (p_opt p) && negb (existsb (Z.eqb (p_pid p)) pids) && negb (String.eqb (p_name p) "ObjClass")) l).
