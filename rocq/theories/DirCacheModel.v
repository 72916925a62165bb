(** Directory entry objects: the weak table of live objects, the table of modified ones, and the
    slots in the file behind them; and what a client of them should see (C14). *)
From Verif Require Import Base LRUModel CfbModel CfbSave StreamSpec.
From Coq Require Import ZArith List Bool.
Import ListNotations.
Open Scope Z_scope.

(** ** The library *)

(** cfb.py:469-489 DirEntry: its id (None once it is freed) and its 128 bytes. The link to the
    parent, the cached name and the storage are left out. *)
Record obj : Type := mkobj { o_id : option Z; o_data : list Z }.

(** A python dict from ids to objects, as a list of pairs; its order is never used *)
Fixpoint aget (l : list (Z * Z)) (i : Z) : option Z :=
  match l with [] => None | (j, a) :: r => if j =? i then Some a else aget r i end.
(** dict.pop(i, None) *)
Definition adel (l : list (Z * Z)) (i : Z) : list (Z * Z) := filter (fun p => negb (fst p =? i)) l.
(** d[i] = a *)
Definition aput (l : list (Z * Z)) (i a : Z) : list (Z * Z) := (i, a) :: adel l i.
(** d.keys() *)
Definition akeys (l : list (Z * Z)) : list Z := map fst l.

(** cfb.py:1078-1104 the parts of CompoundFileBinary that entries use: the file with its sector
    cache and directory chain [k_s], the mode, the weak dictionary dir_cache, and the dictionary
    modified. [k_objs] is the heap; [k_new] the next address; [k_held] the addresses that
    variables of the client (or self.root, children_cache, parent links) keep alive. *)
Record dstate : Type := mkdc {
  k_s : cfb; k_ro : bool; k_objs : Z -> obj; k_new : Z;
  k_cache : Z -> option Z; k_mod : list (Z * Z); k_held : list Z }.

(** assignment to one element of a function (no counterpart in the code) *)
Definition upd {A} (f : Z -> A) (i : Z) (v : A) : Z -> A := fun j => if j =? i then v else f j.
(** the file, its sector cache and tables after a call of theirs *)
Definition kset_s k s := mkdc s (k_ro k) (k_objs k) (k_new k) (k_cache k) (k_mod k) (k_held k).
(** the object at address [a] after an assignment to one of its attributes *)
Definition kset_obj k a o := mkdc (k_s k) (k_ro k) (upd (k_objs k) a o) (k_new k) (k_cache k) (k_mod k) (k_held k).
(** self.dir_cache *)
Definition kset_cache k c := mkdc (k_s k) (k_ro k) (k_objs k) (k_new k) c (k_mod k) (k_held k).
(** self.modified *)
Definition kset_mod k m := mkdc (k_s k) (k_ro k) (k_objs k) (k_new k) (k_cache k) m (k_held k).
(** the variables of the client *)
Definition kset_held k h := mkdc (k_s k) (k_ro k) (k_objs k) (k_new k) (k_cache k) (k_mod k) h.
(** a new object, held by the variable it is assigned to *)
Definition kalloc k o := mkdc (k_s k) (k_ro k) (upd (k_objs k) (k_new k) o) (k_new k + 1) (k_cache k) (k_mod k) (k_new k :: k_held k).

(** cfb.py:1521-1542 write_modified_dir_entries: the position comes from the entry's own id *)
Fixpoint write_mods (k : dstate) (ids : list Z) : result dstate :=
  match ids with
  | [] => Ok k
  | i :: r =>
    match aget (k_mod k) i with
    | None => Err KeyError
    | Some a =>
      match o_id (k_objs k a) with
      | None => Err TypeError
      | Some j => do s1 <- write_slot (k_s k) j (o_data (k_objs k a)) ;; write_mods (kset_s k s1) r
      end
    end
  end.
(** cfb.py:1521-1542 write_modified_dir_entries: the ids in order, then self.modified is emptied *)
Definition kflush (k : dstate) : result dstate :=
  do k1 <- write_mods k (sort_ids (akeys (k_mod k))) ;; Ok (kset_mod k1 []).

(** cfb.py:661-670 mark_modified *)
Definition kmark (k : dstate) (a : Z) : result dstate :=
  if k_ro k then Ok k else
  match o_id (k_objs k a) with
  | None => Ok k
  | Some i =>
    let k1 := kset_mod k (aput (k_mod k) i a) in
    if 128 <? zlen (k_mod k1) then kflush k1 else Ok k1
  end.

(** cfb.py:498-659 every setter: some bytes of the data are replaced, then mark_modified *)
Definition kset_field (k : dstate) (a off : Z) (d : list Z) : result dstate :=
  let o := k_objs k a in kmark (kset_obj k a (mkobj (o_id o) (splice off d (o_data o)))) a.

(** cfb.py:1712-1734 read_dir_entry *)
Definition kaccess (k : dstate) (i : Z) : result (dstate * Z) :=
  match k_cache k i with
  | Some a => Ok (kset_held k (a :: k_held k), a)
  | None =>
    match znth (dir_chain (k_s k)) (i * 128 / ss (k_s k)) with
    | None => Err IndexError
    | Some sid =>
      let '(s1, sector) := read_sector_data (k_s k) sid in
      let off := i * 128 mod ss (k_s k) in
      let k1 := kalloc (kset_s k s1) (mkobj (Some i) (slice off (off + 128) sector)) in
      Ok (kset_cache k1 (upd (k_cache k1) i (Some (k_new k))), k_new k)
    end
  end.

(** cfb.py:473-485 the data of a new entry: no links and no sector *)
Definition blank_data : list Z := zeros 68 ++ repeat 255 12 ++ zeros 36 ++ repeat 255 4 ++ zeros 8.

(** several assignments to fields of an entry *)
Fixpoint kset_fields (k : dstate) (a : Z) (us : list (Z * list Z)) : result dstate :=
  match us with [] => Ok k | (off, d) :: r => do k1 <- kset_field k a off d ;; kset_fields k1 a r end.

(** cfb.py:1848-1860 create_dir_entry, after next_free_dir_id gave [i]: a new object; its name, type,
    class and colour are set (each marks it as modified); then it enters the cache. Linking it into
    the tree sets fields of other entries, which are operations of their own. Simplification: the
    object enters the cache after the last of its own fields instead of between two of them. *)
Definition kcreate (k : dstate) (i : Z) (us : list (Z * list Z)) : result (dstate * Z) :=
  let a := k_new k in
  do k1 <- kset_fields (kalloc k (mkobj (Some i) blank_data)) a us ;;
  Ok (kset_cache k1 (upd (k_cache k1) i (Some a)), a).

(** cfb.py:1862-1877 free_dir_entry (children_cache is left out) *)
Definition kfree (k : dstate) (a : Z) : result dstate :=
  let o := k_objs k a in
  match o_id o with
  | None => Err KeyError
  | Some i => Ok (kset_obj (kset_mod (kset_cache k (upd (k_cache k) i None)) (adel (k_mod k) i)) a (mkobj None (o_data o)))
  end.

(** The collector: an object that nothing holds leaves the weak dictionary. It may run at any time,
    on any such object. *)
Definition kcollect (k : dstate) (a : Z) : dstate :=
  kset_cache k (fun i => match k_cache k i with Some b => if b =? a then None else Some b | None => None end).
(** whether a variable or self.modified keeps the object alive *)
Definition held_b (k : dstate) (a : Z) : bool :=
  existsb (Z.eqb a) (k_held k) || existsb (fun p => snd p =? a) (k_mod k).

(** What a client of the entries does, with the steps of the collector and of other code *)
Inductive dop : Type :=
| DAccess (i : Z)                          (* read_dir_entry *)
| DGet (a : Z)                             (* read the bytes of an entry *)
| DSet (a off : Z) (d : list Z)            (* a setter *)
| DCreate (i : Z) (us : list (Z * list Z))
| DFree (a : Z)
| DDrop (a : Z)                            (* a variable of the client goes away *)
| DCollect (a : Z)                         (* the collector takes an object *)
| DFlush                                   (* write_modified_dir_entries *)
| DGrow (sid : Z)                          (* cfb.py:1749-1751 the directory gets one more sector *)
| DWrite (sid off : Z) (d : list Z)        (* other code writes in a sector that is not the directory's *)
| DRead (sid : Z).                         (* other code reads a sector through the cache *)

(** What the client sees of it *)
Inductive dobs : Type := DAddr (a : Z) | DBytes (d : list Z) | DOk | DIllegal.

(** what the callers respect: entries in use are reached by their links, ids come from the free list,
    sectors from the allocator. [live] are the ids in use. *)
Definition in_dir_b (ssz : Z) (dc : list Z) (i : Z) : bool := (0 <=? i) && (i <? zlen dc * (ssz / 128)).
(** a field lies within the 128 bytes *)
Definition field_b (u : Z * list Z) : bool := (0 <=? fst u) && (fst u + zlen (snd u) <=? 128).
(** the client has a variable for the object *)
Definition knows (k : dstate) (a : Z) : bool := existsb (Z.eqb a) (k_held k).
(** the operations that callers make *)
Definition klegal (k : dstate) (live : list Z) (o : dop) : bool :=
  match o with
  | DAccess i => existsb (Z.eqb i) live
  | DGet a | DDrop a => knows k a
  | DSet a off d => knows k a && field_b (off, d)
  | DCreate i us => negb (existsb (Z.eqb i) live) && in_dir_b (ss (k_s k)) (dir_chain (k_s k)) i && forallb field_b us && negb (zlen us =? 0)
  | DFree a => knows k a && match o_id (k_objs k a) with Some _ => true | None => false end
  | DCollect a => negb (held_b k a)
  | DFlush => true
  | DGrow sid => (0 <=? sid) && negb (existsb (Z.eqb sid) (dir_chain (k_s k)))
  | DWrite sid off d => (0 <=? sid) && negb (existsb (Z.eqb sid) (dir_chain (k_s k))) && (0 <=? off) && (off + zlen d <=? ss (k_s k))
  | DRead sid => 0 <=? sid
  end.

(** One operation: the functions above *)
Definition kcall (k : dstate) (live : list Z) (o : dop) : result (dstate * list Z * dobs) :=
  match o with
  | DAccess i => do (k1, a) <- kaccess k i ;; Ok (k1, live, DAddr a)
  | DGet a => Ok (k, live, DBytes (o_data (k_objs k a)))
  | DSet a off d => do k1 <- kset_field k a off d ;; Ok (k1, live, DOk)
  | DCreate i us => do (k1, a) <- kcreate k i us ;; Ok (k1, i :: live, DAddr a)
  | DFree a => do k1 <- kfree k a ;;
      Ok (k1, match o_id (k_objs k a) with Some i => remove Z.eq_dec i live | None => live end, DOk)
  | DDrop a => Ok (kset_held k (remove Z.eq_dec a (k_held k)), live, DOk)
  | DCollect a => Ok (kcollect k a, live, DOk)
  | DFlush => do k1 <- kflush k ;; Ok (k1, live, DOk)
  | DGrow sid => Ok (kset_s k (set_dir (k_s k) (dir_chain (k_s k) ++ [sid]) (dir_cnt (k_s k) + 1) (dir_free (k_s k))), live, DOk)
  | DWrite sid off d => Ok (kset_s k (write_at (k_s k) sid off d), live, DOk)
  | DRead sid => Ok (kset_s k (fst (read_sector_data (k_s k) sid)), live, DOk)
  end.
(** One operation, if callers make it *)
Definition kstep k live o := if klegal k live o then kcall k live o else Ok (k, live, DIllegal).
(** A sequence of operations *)
Fixpoint krun (k : dstate) (live : list Z) (ops : list dop) : result (dstate * list Z * list dobs) :=
  match ops with
  | [] => Ok (k, live, [])
  | o :: r => do (k1, l1, v) <- kstep k live o ;; do (k2, l2, vs) <- krun k1 l1 r ;; Ok (k2, l2, v :: vs)
  end.

(** ** What a client should see

    One string of bytes per id in use, and for every variable the id it stands for, or, once the
    entry was freed, the bytes it was left with. Flushes, collections, growth of the directory and
    other writes are not visible. *)
Inductive var : Type := VEntry (i : Z) | VFreed (d : list Z).
(** Specification: the live ids, the bytes of each and what each variable is *)
Record dspec : Type := mkds { z_live : list Z; z_data : Z -> list Z; z_var : Z -> option var }.

(** the bytes a variable shows *)
Definition vbytes (z : dspec) (v : var) : list Z := match v with VEntry i => z_data z i | VFreed d => d end.
(** several assignments to ranges of bytes *)
Fixpoint splices (d : list Z) (us : list (Z * list Z)) : list Z :=
  match us with [] => d | (off, u) :: r => splices (splice off u d) r end.

(** when a call may be refused: a client that keeps its variables and picks fields inside the entry
    is never refused; an id must be free for a new entry. Where the directory and the other data lie,
    and what the collector may take, is not the client's business. *)
Definition may_refuse (z : dspec) (o : dop) : Prop :=
  match o with
  | DAccess i => ~ In i (z_live z)
  | DGet a | DDrop a => z_var z a = None
  | DSet a off d => z_var z a = None \/ off < 0 \/ 128 < off + zlen d
  | DFree a => forall i, z_var z a <> Some (VEntry i)
  | DFlush => False
  | DCreate _ _ | DCollect _ | DGrow _ | DWrite _ _ _ | DRead _ => True
  end.

(** Specification of one operation: entries are independent arrays of 128 bytes *)
Inductive zstep (z : dspec) : dop -> dobs -> dspec -> Prop :=
| Z_illegal : forall o, may_refuse z o -> zstep z o DIllegal z
| Z_access : forall i a, In i (z_live z) ->
    (z_var z a = None \/ z_var z a = Some (VEntry i)) ->
    zstep z (DAccess i) (DAddr a) (mkds (z_live z) (z_data z) (upd (z_var z) a (Some (VEntry i))))
| Z_get : forall a v, z_var z a = Some v -> zstep z (DGet a) (DBytes (vbytes z v)) z
| Z_set : forall a i off d, z_var z a = Some (VEntry i) ->
    zstep z (DSet a off d) DOk (mkds (z_live z) (upd (z_data z) i (splice off d (z_data z i))) (z_var z))
| Z_set_freed : forall a b off d, z_var z a = Some (VFreed b) ->
    zstep z (DSet a off d) DOk (mkds (z_live z) (z_data z) (upd (z_var z) a (Some (VFreed (splice off d b)))))
| Z_create : forall i us a, ~ In i (z_live z) -> z_var z a = None ->
    zstep z (DCreate i us) (DAddr a)
      (mkds (i :: z_live z) (upd (z_data z) i (splices blank_data us)) (upd (z_var z) a (Some (VEntry i))))
| Z_free : forall a i, z_var z a = Some (VEntry i) ->
    zstep z (DFree a) DOk (mkds (remove Z.eq_dec i (z_live z)) (z_data z)
       (fun b => match z_var z b with Some (VEntry j) => if j =? i then Some (VFreed (z_data z i)) else Some (VEntry j) | v => v end))
| Z_drop : forall a v, z_var z a = Some v -> zstep z (DDrop a) DOk (mkds (z_live z) (z_data z) (upd (z_var z) a None))
| Z_collect : forall a, zstep z (DCollect a) DOk z
| Z_flush : zstep z DFlush DOk z
| Z_grow : forall sid, zstep z (DGrow sid) DOk z
| Z_write : forall sid off d, zstep z (DWrite sid off d) DOk z
| Z_read : forall sid, zstep z (DRead sid) DOk z.

(** and of a sequence *)
Inductive zruns : dspec -> list dop -> list dobs -> dspec -> Prop :=
| ZR_nil : forall z, zruns z [] [] z
| ZR_cons : forall z o v z1 os vs z2, zstep z o v z1 -> zruns z1 os vs z2 -> zruns z (o :: os) (v :: vs) z2.
