(** Opening a file: its class and type definitions are read and merged with the built-in ones,
    MetaDictionary.read_properties, src/aaf2/metadict.py:560-624, and file.py:210-222.
    What the file stores is given as two lists, the members of ClassDefinitions and TypeDefinitions in
    the order of their sets; the key of a definition is its identifier. Reading the objects
    themselves is in TreeModel. The appends are taken to pass their class check. *)
From Verif Require Import Base TypesModel TimelineModel MetaModel MetaTables.
From Coq Require Import ZArith List Bool String.
Import ListNotations.
Open Scope Z_scope.

(** metadict.py:573-578: the dictionary from id to property of a class that was read *)
Definition bypid_of (c : cdef) : list (Z * pdef) := fold_left (fun d p => zset d (p_pid p) p) (props c) [].
(** metadict.py:572, 580 *)
Definition read_class (c : cdef) : cdef := CDef (c_name c) (c_auid c) (c_parent c) (c_conc c) (c_props c) (bypid_of c).
(** metadict.py:575-576: the dynamic ids of a class that was read enter local_pids *)
Definition dynamic_ids (c : cdef) : list Z := filter (Z.leb 32768) (map p_pid (props c)).

(** metadict.py:562-564: a type that was read replaces the one of its name and the one of its identifier *)
Definition load_type (m : meta) (t : tdef) : meta :=
  Meta (m_heap m) (m_cname m) (m_cauid m) (m_cset m) (m_theap m ++ [t])
    (sset (m_tname m) (t_name t) (List.length (m_theap m))) (zset (m_tauid m) (t_auid t) (List.length (m_theap m))) (m_tset m) (m_pids m).
(** metadict.py:568-580: so does a class *)
Definition load_class (m : meta) (c : cdef) : meta :=
  Meta (m_heap m ++ [read_class c]) (sset (m_cname m) (c_name c) (List.length (m_heap m))) (zset (m_cauid m) (c_auid c) (List.length (m_heap m)))
    (m_cset m) (m_theap m) (m_tname m) (m_tauid m) (m_tset m) (fst (m_pids m), dynamic_ids c ++ snd (m_pids m)).
(** metadict.py:561, 567: the stored sets are those of the file, local_pids is empty; next_pid stays *)
Definition emptied (m : meta) (fc : list cdef) (ft : list tdef) : meta :=
  Meta (m_heap m) (m_cname m) (m_cauid m) (map c_auid fc) (m_theap m) (m_tname m) (m_tauid m) (map t_auid ft) (fst (m_pids m), []).
(** metadict.py:560-580 *)
Definition load (m : meta) (fc : list cdef) (ft : list tdef) : meta :=
  fold_left load_class fc (fold_left load_type ft (emptied m fc ft)).

(** metadict.py:81-83 the setter of PropertyDef.pid *)
Definition with_pid (p : pdef) (pid : Z) : pdef := PDef (p_name p) (p_auid p) pid (p_type p) (p_opt p) (p_uniq p).
(** metadict.py:599, 621: assignment to the pid of the property definition with identifier [a] of a
    class. The object is in the stored set and in propertydef_by_pid, whose key stays. *)
Definition set_pid (c : cdef) (a pid : Z) : cdef :=
  let f := fun x : Z * pdef => (fst x, if p_auid (snd x) =? a then with_pid (snd x) pid else snd x) in
  CDef (c_name c) (c_auid c) (c_parent c) (c_conc c) (map f (c_props c)) (map f (c_bypid c)).

(** metadict.py:593-599, 617-621: a property of the class object at [h] whose dynamic id is taken gets
    another one. The new id, if it changed. *)
Definition renew (m : meta) (h : nat) (p : pdef) : result (meta * option Z) :=
  if (32768 <=? p_pid p) && existsb (Z.eqb (p_pid p)) (snd (m_pids m)) then
    do x <- next_free_pid (m_pids m) ;;
    match nth_error (m_heap m) h with
    | None => Err GenericError
    | Some c => Ok (with_pids (with_class m h (set_pid c (p_auid p) (fst x))) (snd x), Some (fst x))
    end
  else Ok (m, None).

(** metadict.py:601-603: the entry of the type object at [h] moves from the old id to the new one. Only a
    generic character has an entry with a dynamic id (types.py:912-931). *)
Definition move_entry (m : meta) (h : nat) (old new : Z) : result meta :=
  match nth_error (m_theap m) h with
  | None => Err GenericError
  | Some t =>
      match t_kind t with
      | KGenChar size pid => if pid =? old then Ok (with_type m h (TDef (t_name t) (t_auid t) (KGenChar size new))) else Err KeyError
      | _ => Err KeyError
      end
  end.
(** metadict.py:593-603: one property of the class, at [hc], of the type at [ht] *)
Definition renew_for_type (hc ht : nat) (m : meta) (p : pdef) : result meta :=
  do x <- renew m hc p ;;
  match snd x with
  | None => Ok (fst x)
  | Some new => move_entry (fst x) ht (p_pid p) new
  end.
(** metadict.py:617-621 *)
Definition renew_for_class (hc : nat) (m : meta) (p : pdef) : result meta := do x <- renew m hc p ;; Ok (fst x).

(** metadict.py:605, 607, 623: append to the stored sets *)
Definition store_type (m : meta) (a : Z) : meta :=
  Meta (m_heap m) (m_cname m) (m_cauid m) (m_cset m) (m_theap m) (m_tname m) (m_tauid m) (add_key (m_tset m) a) (m_pids m).
(** metadict.py:607, 623: the same for a class *)
Definition store_class (m : meta) (a : Z) : meta :=
  Meta (m_heap m) (m_cname m) (m_cauid m) (add_key (m_cset m) a) (m_theap m) (m_tname m) (m_tauid m) (m_tset m) (m_pids m).

(** metadict.py:586-587 the two types and 613 the class that are not part of the data model *)
Definition ROOT_TYPES : list Z := [0x0502280000000000060e2b3401040101; 0x0502270000000000060e2b3401040101].
(** metadict.py:613 *)
Definition ROOT_CLASS : Z := 0xb3b398a51c9011d48053080036210804.

(** metadict.py:584-607: a type the file does not have, with its class *)
Definition add_type (m : meta) (x : Z * nat) : result meta :=
  if existsb (Z.eqb (fst x)) ROOT_TYPES || existsb (Z.eqb (fst x)) (m_tset m) then Ok m
  else
    match nth_error (m_theap m) (snd x) with
    | None => Err GenericError
    | Some t =>
        match zget (m_cauid m) (fst (kind_class (t_kind t))) with
        | None => Err AssertionError
        | Some hc =>
            match nth_error (m_heap m) hc with
            | None => Err GenericError
            | Some c =>
                do m <- each (renew_for_type hc (snd x)) (props c) m ;;
                Ok (store_class (store_type m (fst x)) (c_auid c))
            end
        end
    end.
(** metadict.py:611-624: a class the file does not have *)
Definition add_class (m : meta) (x : Z * nat) : result meta :=
  if (fst x =? ROOT_CLASS) || existsb (Z.eqb (fst x)) (m_cset m) then Ok m
  else
    match nth_error (m_heap m) (snd x) with
    | None => Err GenericError
    | Some c =>
        do m <- each (renew_for_class (snd x)) (props c) m ;;
        Ok (store_class m (fst x))
    end.

(** metadict.py:560-624 read_properties *)
Definition read_dictionary (writeable : bool) (m : meta) (fc : list cdef) (ft : list tdef) : result meta :=
  let m := load m fc ft in
  if writeable then
    do m <- each add_type (m_tauid m) m ;;
    each add_class (m_cauid m) m
  else Ok m.
(** file.py:210-216, 221-222: opening an existing file *)
Definition open_dictionary (writeable extensions : bool) (fc : list cdef) (ft : list tdef) : result meta :=
  do m <- base_model ;;
  do m <- read_dictionary writeable m fc ft ;;
  if extensions && writeable then with_extensions m else Ok m.
