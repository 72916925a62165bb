(** Model of src/aaf2/cfb.py: sector tables, chain operations, sector cache and [Stream].
    Definitions only; the proofs are in Cfb*Proofs.v and the properties in Props*.v. *)
From Verif Require Import Base LRUModel.
From Coq Require Import ZArith List Bool.
Import ListNotations.
Open Scope Z_scope.

(** cfb.py:47-52 *)
Definition DIFSECT : Z := 0xFFFFFFFC.
(** cfb.py:48 *)
Definition FATSECT : Z := 0xFFFFFFFD.
(** cfb.py:49 *)
Definition ENDOFCHAIN : Z := 0xFFFFFFFE.
(** cfb.py:50 *)
Definition FREESECT : Z := 0xFFFFFFFF.
(** cfb.py:52 *)
Definition RANGELOCKSECT : Z := 0x7FFFFF00 / 4096 - 1.
(** cfb.py:54 *)
Definition MAXREGSECT : Z := 0xFFFFFFFA.

(** The two fields of a DirEntry (cfb.py:469-659) that streams use: sector_id (None when the
    field holds 0xFFFFFFFF, utils.py:60-63) and byte_size. The 128-byte image behind them is
    modelled in DirEntryModel.v. *)
Record entry : Type := mkent { e_sid : option Z; e_size : Z }.

(** cfb.py:1078-1142, the attributes of CompoundFileBinary that allocation and streams use.
    [file] is the content of the file object; directory entries are a store indexed by dir_id,
    number 0 being the root entry. [cache] is the LRU sector cache, as the recency list that
    C15_lru_is_recency_list proves LRUCacheDict to be, with capacity [ccap] (513 in the code). *)
Record cfb : Type := mkcfb {
  ss : Z;                      (* sector_size *)
  mss : Z;                     (* mini_stream_sector_size *)
  mmax : Z;                    (* min_stream_max_size *)
  file : list Z;
  fat : list Z;
  ffree : list Z;              (* fat_freelist *)
  difat : list (list Z);
  difat_start : Z;
  difat_cnt : Z;
  fat_cnt : Z;
  minifat : list Z;
  mfree : list Z;              (* minifat_freelist *)
  minifat_start : Z;
  minifat_cnt : Z;
  minifat_chain : list Z;
  mini_chain : list Z;         (* mini_stream_chain *)
  dir_chain : list Z;          (* dir_fat_chain *)
  dir_cnt : Z;
  dir_free : list Z;           (* dir_freelist *)
  ccap : nat;
  cache : list (Z * list Z);
  ents : Z -> entry }.

(** attribute assignments *)
Definition set_file s v := mkcfb (ss s) (mss s) (mmax s) v (fat s) (ffree s) (difat s) (difat_start s) (difat_cnt s) (fat_cnt s) (minifat s) (mfree s) (minifat_start s) (minifat_cnt s) (minifat_chain s) (mini_chain s) (dir_chain s) (dir_cnt s) (dir_free s) (ccap s) (cache s) (ents s).
(** self.fat (cfb.py:1083), or an assignment to its elements *)
Definition set_fat s v := mkcfb (ss s) (mss s) (mmax s) (file s) v (ffree s) (difat s) (difat_start s) (difat_cnt s) (fat_cnt s) (minifat s) (mfree s) (minifat_start s) (minifat_cnt s) (minifat_chain s) (mini_chain s) (dir_chain s) (dir_cnt s) (dir_free s) (ccap s) (cache s) (ents s).
(** self.fat_freelist *)
Definition set_ffree s v := mkcfb (ss s) (mss s) (mmax s) (file s) (fat s) v (difat s) (difat_start s) (difat_cnt s) (fat_cnt s) (minifat s) (mfree s) (minifat_start s) (minifat_cnt s) (minifat_chain s) (mini_chain s) (dir_chain s) (dir_cnt s) (dir_free s) (ccap s) (cache s) (ents s).
(** self.difat with difat_sector_start, difat_sector_count and fat_sector_count *)
Definition set_difat s v st c n := mkcfb (ss s) (mss s) (mmax s) (file s) (fat s) (ffree s) v st c n (minifat s) (mfree s) (minifat_start s) (minifat_cnt s) (minifat_chain s) (mini_chain s) (dir_chain s) (dir_cnt s) (dir_free s) (ccap s) (cache s) (ents s).
(** self.minifat, or an assignment to its elements *)
Definition set_minifat s v := mkcfb (ss s) (mss s) (mmax s) (file s) (fat s) (ffree s) (difat s) (difat_start s) (difat_cnt s) (fat_cnt s) v (mfree s) (minifat_start s) (minifat_cnt s) (minifat_chain s) (mini_chain s) (dir_chain s) (dir_cnt s) (dir_free s) (ccap s) (cache s) (ents s).
(** self.minifat_freelist *)
Definition set_mfree s v := mkcfb (ss s) (mss s) (mmax s) (file s) (fat s) (ffree s) (difat s) (difat_start s) (difat_cnt s) (fat_cnt s) (minifat s) v (minifat_start s) (minifat_cnt s) (minifat_chain s) (mini_chain s) (dir_chain s) (dir_cnt s) (dir_free s) (ccap s) (cache s) (ents s).
(** self.minifat_chain with minifat_sector_start and minifat_sector_count *)
Definition set_minifat_chain s c st n := mkcfb (ss s) (mss s) (mmax s) (file s) (fat s) (ffree s) (difat s) (difat_start s) (difat_cnt s) (fat_cnt s) (minifat s) (mfree s) st n c (mini_chain s) (dir_chain s) (dir_cnt s) (dir_free s) (ccap s) (cache s) (ents s).
(** self.mini_stream_chain *)
Definition set_mini_chain s v := mkcfb (ss s) (mss s) (mmax s) (file s) (fat s) (ffree s) (difat s) (difat_start s) (difat_cnt s) (fat_cnt s) (minifat s) (mfree s) (minifat_start s) (minifat_cnt s) (minifat_chain s) v (dir_chain s) (dir_cnt s) (dir_free s) (ccap s) (cache s) (ents s).
(** self.dir_fat_chain, dir_sector_count and dir_freelist *)
Definition set_dir s c n fr := mkcfb (ss s) (mss s) (mmax s) (file s) (fat s) (ffree s) (difat s) (difat_start s) (difat_cnt s) (fat_cnt s) (minifat s) (mfree s) (minifat_start s) (minifat_cnt s) (minifat_chain s) (mini_chain s) c n fr (ccap s) (cache s) (ents s).
(** self.sector_cache *)
Definition set_cache s v := mkcfb (ss s) (mss s) (mmax s) (file s) (fat s) (ffree s) (difat s) (difat_start s) (difat_cnt s) (fat_cnt s) (minifat s) (mfree s) (minifat_start s) (minifat_cnt s) (minifat_chain s) (mini_chain s) (dir_chain s) (dir_cnt s) (dir_free s) (ccap s) v (ents s).
(** the directory entries *)
Definition set_ents s v := mkcfb (ss s) (mss s) (mmax s) (file s) (fat s) (ffree s) (difat s) (difat_start s) (difat_cnt s) (fat_cnt s) (minifat s) (mfree s) (minifat_start s) (minifat_cnt s) (minifat_chain s) (mini_chain s) (dir_chain s) (dir_cnt s) (dir_free s) (ccap s) (cache s) v.

(** entry.sector_id = v (cfb.py:641-645) and entry.byte_size = v (cfb.py:652-655) *)
Definition set_sid s e v := let o := ents s in let x := mkent v (e_size (o e)) in
  set_ents s (fun j => if j =? e then x else o j).
(** entry.byte_size = v (cfb.py:656-659) *)
Definition set_size s e v := let o := ents s in let x := mkent (e_sid (o e)) v in
  set_ents s (fun j => if j =? e then x else o j).

(** file.seek(pos); file.write(d): a gap past the end of the file reads as zeros *)
Definition fwrite (f : list Z) (pos : Z) (d : list Z) : list Z :=
  match d with
  | [] => f
  | _ => ztake pos (f ++ zeros (pos - zlen f)) ++ d ++ zdrop (pos + zlen d) f
  end.
(** file.seek(pos); file.read(n) *)
Definition fread (f : list Z) (pos n : Z) : list Z := slice pos (pos + n) f.

(** ** Chains *)

(** cfb.py:1776-1783 the two-pointer loop of get_fat_chain; [sectors] is built in reverse *)
Fixpoint chain_loop (fuel : nat) (tbl : list Z) (a b : Z) (sectors : list Z) : result (list Z) :=
  if b =? ENDOFCHAIN then Ok (rev sectors)
  else match fuel with
  | O => Err OutOfFuel
  | S n =>
    match znth tbl b with
    | None => Err IndexError
    | Some b' =>
      if a =? ENDOFCHAIN then chain_loop n tbl a b' (b :: sectors)
      else match znth tbl a with
      | None => Err IndexError
      | Some a1 =>
        if a1 =? ENDOFCHAIN then chain_loop n tbl a1 b' (b :: sectors)
        else match znth tbl a1 with
        | None => Err IndexError
        | Some a2 =>
          if a2 =? b' then Err CompoundError
          else chain_loop n tbl a2 b' (b :: sectors)
        end
      end
    end
  end.

(** cfb.py:1760-1785 get_fat_chain; the table is passed instead of the minifat flag *)
Definition get_fat_chain (tbl : list Z) (start : option Z) : result (list Z) :=
  match start with
  | None => Ok []
  | Some b =>
    if (b =? ENDOFCHAIN) || (b =? FREESECT) || (b =? DIFSECT) || (b =? FATSECT) then Ok []
    else chain_loop (S (length tbl)) tbl b b []
  end.

(** ** FAT growth *)

(** cfb.py:1373-1381 iter_difat with the test "v == FREESECT" of 1618-1622 / 1643-1647:
    first free slot as (table, index) *)
Fixpoint first_free (l : list Z) (i : Z) : option Z :=
  match l with
  | [] => None
  | v :: t => if v =? FREESECT then Some i else first_free t (i + 1)
  end.
(** cfb.py:1373-1381 iter_difat: the tables after the first; their last element links to the next one *)
Fixpoint find_slot_from (ts : list (list Z)) (t : Z) : option (Z * Z) :=
  match ts with
  | [] => None
  | x :: r => match first_free (removelast x) 0 with
              | Some i => Some (t, i)
              | None => find_slot_from r (t + 1)
              end
  end.
(** cfb.py:1373-1381 iter_difat: the first table has no link *)
Definition find_slot (d : list (list Z)) : option (Z * Z) :=
  match d with
  | [] => None
  | x :: r => match first_free x 0 with
              | Some i => Some (0, i)
              | None => find_slot_from r 1
              end
  end.

(** cfb.py:1373-1381 iter_difat, the values only: the last entry of every table but the first is
    the link to the next table *)
Definition iter_difat (d : list (list Z)) : list Z :=
  match d with
  | [] => []
  | x :: r => x ++ flat_map (@removelast Z) r
  end.

(** self.difat[t][i] = v *)
Definition difat_set (d : list (list Z)) (t i v : Z) : list (list Z) :=
  match znth d t with
  | Some row => zupd d t (zupd row i v)
  | None => d
  end.

(** cfb.py:1612-1678, the part of next_free_sect that grows the table.
    Simplification: the guard on MAXREGSECT is not in the code. Past 2^32-6 sectors (2 TiB with
    512-byte sectors, 16 TiB with 4096) sector numbers would collide with the special marks; the
    model stops there with Overflow, and the theorems say so. *)
Definition grow_fat (s : cfb) : result cfb :=
  guard (zlen (fat s) + ss s / 4 <=? MAXREGSECT) else Overflow ;;
  let n := ss s / 4 in
  do (s1, slot, new_difat) <-
    match find_slot (difat s) with
    | Some slot => Ok (s, slot, None)
    | None =>
      let nd := zlen (fat s) + 1 in
      let last := zlen (difat s) - 1 in
      let table := repeat FREESECT (Z.to_nat n) in
      let s1 :=
        if difat_cnt s =? 0
        then set_difat s (difat s ++ [table]) nd 1 (fat_cnt s)
        else (* self.difat[-1][-1] = new_difat_sect *)
          let d := match znth (difat s) last with
                   | Some row => zupd (difat s) last (zupd row (zlen row - 1) nd)
                   | None => difat s
                   end in
          set_difat s (d ++ [table]) (difat_start s) (difat_cnt s + 1) (fat_cnt s) in
      match find_slot (difat s1) with
      | Some slot => Ok (s1, slot, Some nd)
      | None => Err TypeError
      end
    end ;;
  let new_fat := zlen (fat s) in
  let '(t, i) := slot in
  let i0 := zlen (fat s) in
  let i1 := i0 + n in
  let rl := (RANGELOCKSECT <? i1) && (i0 <? RANGELOCKSECT) && (ss s =? 4096) in
  let fat1 := fat s ++ repeat FREESECT (Z.to_nat n) in
  let fat2 := if rl then zupd fat1 RANGELOCKSECT ENDOFCHAIN else fat1 in
  let free := filter (fun j => negb ((j =? new_fat)
                || (match new_difat with Some d => j =? d | None => false end)
                || (rl && (j =? RANGELOCKSECT)))) (zseq i0 n) in
  let fat3 := zupd fat2 new_fat FATSECT in
  let fat4 := match new_difat with Some d => zupd fat3 d DIFSECT | None => fat3 end in
  let s2 := set_difat s1 (difat_set (difat s1) t i new_fat) (difat_start s1) (difat_cnt s1) (fat_cnt s1 + 1) in
  Ok (set_ffree (set_fat s2 fat4) (ffree s ++ free)).

(** cfb.py:1598-1680 next_free_sect *)
Fixpoint next_free_sect_f (fuel : nat) (s : cfb) : result (cfb * Z) :=
  match fuel with
  | O => Err OutOfFuel
  | S n =>
    match ffree s with
    | i :: rest =>
      match znth (fat s) i with
      | None => Err IndexError
      | Some v =>
        guard (v =? FREESECT) else AssertionError ;;
        let s1 := set_ffree s rest in
        if (i =? RANGELOCKSECT) && (ss s =? 4096)
        then next_free_sect_f n (set_fat s1 (zupd (fat s1) i ENDOFCHAIN))
        else Ok (s1, i)
      end
    | [] => do s1 <- grow_fat s ;; next_free_sect_f n s1
    end
  end.
(** depth: at most one range-lock retry, one growth, one pop *)
Definition next_free_sect (s : cfb) : result (cfb * Z) := next_free_sect_f 4 s.

(** cfb.py:1787-1797 mini_stream_grow *)
Definition mini_stream_grow (s : cfb) : result cfb :=
  do (s1, sid) <- next_free_sect s ;;
  let s2 :=
    match mini_chain s1 with
    | [] => set_sid (set_mini_chain s1 [sid]) 0 (Some sid)
    | _ => set_mini_chain (set_fat s1 (zupd (fat s1) (last (mini_chain s1) 0) sid)) (mini_chain s1 ++ [sid])
    end in
  Ok (set_fat s2 (zupd (fat s2) sid ENDOFCHAIN)).

(** cfb.py:1577-1595 the growing part of next_free_minifat_sect; same simplification as in
    [grow_fat]: the guard on the table size is not in the code *)
Definition grow_minifat (s : cfb) : result cfb :=
  guard (zlen (minifat s) + ss s / 4 <=? MAXREGSECT) else Overflow ;;
  do (s1, sid) <- next_free_sect s ;;
  let n := ss s1 / 4 in
  let i0 := zlen (minifat s1) in
  let s2 := set_mfree (set_minifat s1 (minifat s1 ++ repeat FREESECT (Z.to_nat n))) (mfree s1 ++ zseq i0 n) in
  do s3 <- (if minifat_cnt s2 =? 0
            then Ok (set_minifat_chain s2 (minifat_chain s2 ++ [sid]) sid 1)
            else match minifat_chain s2 with
                 | [] => Err IndexError
                 | _ => Ok (set_minifat_chain
                         (set_fat s2 (zupd (fat s2) (last (minifat_chain s2) 0) sid))
                         (minifat_chain s2 ++ [sid]) (minifat_start s2) (minifat_cnt s2 + 1))
                 end) ;;
  Ok (set_fat s3 (zupd (fat s3) sid ENDOFCHAIN)).

(** cfb.py:1564-1596 next_free_minifat_sect *)
Fixpoint next_free_minifat_sect_f (fuel : nat) (s : cfb) : result (cfb * Z) :=
  match fuel with
  | O => Err OutOfFuel
  | S n =>
    let stream_sects := zlen (mini_chain s) * (ss s / mss s) in
    match mfree s with
    | i :: rest =>
      match znth (minifat s) i with
      | None => Err IndexError
      | Some v =>
        guard (v =? FREESECT) else AssertionError ;;
        let s1 := set_mfree s rest in
        if stream_sects <? i + 1
        then do s2 <- mini_stream_grow s1 ;; Ok (s2, i)
        else Ok (s1, i)
      end
    | [] => do s1 <- grow_minifat s ;; next_free_minifat_sect_f n s1
    end
  end.
(** cfb.py:1564-1596 next_free_minifat_sect: the loop grows the table at most once *)
Definition next_free_minifat_sect (s : cfb) : result (cfb * Z) := next_free_minifat_sect_f 2 s.

(** cfb.py:1761-1765, 1800-1804, 1821-1825: the table a chain is in *)
Definition table (s : cfb) (mini : bool) : list Z := if mini then minifat s else fat s.
(** an assignment to an element of that table *)
Definition set_table (s : cfb) (mini : bool) (t : list Z) : cfb := if mini then set_minifat s t else set_fat s t.

(** cfb.py:1799-1818 fat_chain_append *)
Definition fat_chain_append (s : cfb) (start : option Z) (mini : bool) : result (cfb * Z) :=
  do (s1, sect) <- (if mini then next_free_minifat_sect s else next_free_sect s) ;;
  match start with
  | None => Ok (set_table s1 mini (zupd (table s1 mini) sect ENDOFCHAIN), sect)
  | Some _ =>
    do ch <- get_fat_chain (table s1 mini) start ;;
    match ch with
    | [] => Err AssertionError
    | _ =>
      let t1 := zupd (table s1 mini) (last ch 0) sect in
      Ok (set_table s1 mini (zupd t1 sect ENDOFCHAIN), sect)
    end
  end.

(** cfb.py:1820-1830 free_fat_chain: each sector is marked free and inserted at the front *)
Definition free_fat_chain (s : cfb) (start : option Z) (mini : bool) : result cfb :=
  do ch <- get_fat_chain (table s mini) start ;;
  let t := fold_left (fun t sid => zupd t sid FREESECT) ch (table s mini) in
  let s1 := set_table s mini t in
  Ok (if mini then set_mfree s1 (rev ch ++ mfree s1) else set_ffree s1 (rev ch ++ ffree s1)).

(** ** Sector cache *)
(** cache.py:81-89 LRUCacheDict.get (C15) *)
Definition cache_get (c : list (Z * list Z)) (k : Z) := al_get Z (list Z) Z.eqb c k.
(** cache.py:91-100 LRUCacheDict.__delitem__ (C15) *)
Definition cache_del (c : list (Z * list Z)) (k : Z) := al_remove Z (list Z) Z.eqb c k.

(** cfb.py:1682-1695 read_sector_data, through LRUCacheDict.get/__setitem__ (C15) *)
Definition read_sector_data (s : cfb) (sid : Z) : cfb * list Z :=
  match cache_get (cache s) sid with
  | Some d => (set_cache s (fst (spec_step Z (list Z) Z.eqb (ccap s) (cache s) (OGet Z (list Z) sid))), d)
  | None =>
    let got := fread (file s) ((sid + 1) * ss s) (ss s) in
    let d := got ++ zeros (ss s - zlen got) in
    (set_cache s (fst (spec_step Z (list Z) Z.eqb (ccap s) (cache s) (OSet Z (list Z) sid d))), d)
  end.

(** ** Streams *)

(** cfb.py:82-92 Stream: the entry it belongs to, its position and its private copy of the chain *)
Record handle : Type := mkh { h_ent : Z; h_pos : Z; h_chain : list Z }.
(** cfb.py:86, assignment to self.pos of a stream *)
Definition h_at (h : handle) (p : Z) := mkh (h_ent h) p (h_chain h).
(** cfb.py:87-92, assignment to self.fat_chain of a stream *)
Definition h_with (h : handle) (c : list Z) := mkh (h_ent h) (h_pos h) c.

(** cfb.py:120-123 is_mini_stream. Simplification: the root entry is recognised by its number 0,
    not by its type byte. *)
Definition is_mini_stream (s : cfb) (e : Z) : bool :=
  if e =? 0 then false else e_size (ents s e) <? mmax s.
(** cfb.py:125-129 sector_size *)
Definition sector_size (s : cfb) (e : Z) : Z := if is_mini_stream s e then mss s else ss s.

(** cfb.py:83-92 Stream.__init__ (the mode is not modelled: it is never consulted later) *)
Definition stream_open (s : cfb) (e : Z) : result handle :=
  do ch <- get_fat_chain (table s (is_mini_stream s e)) (e_sid (ents s e)) ;;
  Ok (mkh e 0 ch).

(** cfb.py:166-203 the loop of read, mini-stream case *)
Fixpoint read_mini (fuel : nat) (s : cfb) (chain : list Z) (idx off left : Z) (prev : Z * list Z) (acc : list Z)
  : result (cfb * list Z) :=
  if left <=? 0 then Ok (s, acc) else
  match fuel with
  | O => Err OutOfFuel
  | S n =>
    match znth chain idx with
    | None => Err IndexError
    | Some msid =>
      let mpos := msid * mss s + off in
      match znth (mini_chain s) (mpos / ss s) with
      | None => Err IndexError
      | Some sid =>
        let '(s1, data) := if sid =? fst prev then (s, snd prev) else read_sector_data s sid in
        let k := Z.min left (mss s - off) in
        guard (0 <? k) else AssertionError ;;
        let d := slice (mpos mod ss s) (mpos mod ss s + k) data in
        guard (zlen d =? k) else ValueError ;;
        read_mini n s1 chain (idx + 1) 0 (left - k) (sid, data) (acc ++ d)
      end
    end
  end.

(** cfb.py:166-203 the loop of read, regular case *)
Fixpoint read_reg (fuel : nat) (s : cfb) (chain : list Z) (idx off left : Z) (acc : list Z)
  : result (cfb * list Z) :=
  if left <=? 0 then Ok (s, acc) else
  match fuel with
  | O => Err OutOfFuel
  | S n =>
    match znth chain idx with
    | None => Err IndexError
    | Some sid =>
      let '(s1, data) := read_sector_data s sid in
      let k := Z.min left (ss s - off) in
      guard (0 <? k) else AssertionError ;;
      let d := slice off (off + k) data in
      guard (zlen d =? k) else ValueError ;;
      read_reg n s1 chain (idx + 1) 0 (left - k) (acc ++ d)
    end
  end.

(** cfb.py:137-205 read; the argument -1 means "to the end" *)
Definition stream_read (s : cfb) (h : handle) (n : Z) : result (cfb * handle * list Z) :=
  let size := e_size (ents s (h_ent h)) in
  let todo := if n =? -1 then Z.max 0 (size - h_pos h) else Z.max 0 (Z.min n (size - h_pos h)) in
  do (s1, d) <-
    (if size <? mmax s
     then read_mini (Z.to_nat todo) s (h_chain h) (h_pos h / mss s) (h_pos h mod mss s) todo (-1, []) []
     else read_reg (Z.to_nat todo) s (h_chain h) (h_pos h / ss s) (h_pos h mod ss s) todo []) ;;
  Ok (s1, h_at h (h_pos h + zlen d), d).

(** cfb.py:296-299 "if sid in sector_cache: del sector_cache[sid]; f.seek(..); f.write(..)" *)
Definition write_at (s : cfb) (sid : Z) (off : Z) (d : list Z) : cfb :=
  set_file (set_cache s (cache_del (cache s) sid)) (fwrite (file s) ((sid + 1) * ss s + off) d).

(** cfb.py:268-306 the loop of write, mini-stream case *)
Fixpoint write_mini (fuel : nat) (s : cfb) (chain : list Z) (idx off : Z) (data : list Z) : result cfb :=
  if zlen data <=? 0 then Ok s else
  match fuel with
  | O => Err OutOfFuel
  | S n =>
    match znth chain idx with
    | None => Err IndexError
    | Some msid =>
      let mpos := msid * mss s + off in
      match znth (mini_chain s) (mpos / ss s) with
      | None => Err IndexError
      | Some sid =>
        let k := Z.min (zlen data) (mss s - off) in
        guard (0 <? k) else AssertionError ;;
        write_mini n (write_at s sid (mpos mod ss s) (ztake k data)) chain (idx + 1) 0 (zdrop k data)
      end
    end
  end.

(** cfb.py:268-306 the loop of write, regular case *)
Fixpoint write_reg (fuel : nat) (s : cfb) (chain : list Z) (idx off : Z) (data : list Z) : result cfb :=
  if zlen data <=? 0 then Ok s else
  match fuel with
  | O => Err OutOfFuel
  | S n =>
    match znth chain idx with
    | None => Err IndexError
    | Some sid =>
      let k := Z.min (zlen data) (ss s - off) in
      guard (0 <? k) else AssertionError ;;
      write_reg n (write_at s sid off (ztake k data)) chain (idx + 1) 0 (zdrop k data)
    end
  end.

(** cfb.py:243-308 write, with the call of allocate (248) abstracted: allocate itself calls write
    (240), on data that fits, so that inner call never allocates (see [no_alloc]) *)
Definition write_gen (alloc : cfb -> handle -> Z -> result (cfb * handle))
  (s : cfb) (h : handle) (data : list Z) : result (cfb * handle) :=
  let cur := e_size (ents s (h_ent h)) in
  let new_size := Z.max (h_pos h + zlen data) cur in
  do (s1, h1) <- (if cur <? new_size then alloc s h new_size else Ok (s, h)) ;;
  let size := e_size (ents s1 (h_ent h1)) in
  do s2 <-
    (if size <? mmax s1
     then write_mini (length data) s1 (h_chain h1) (h_pos h1 / mss s1) (h_pos h1 mod mss s1) data
     else write_reg (length data) s1 (h_chain h1) (h_pos h1 / ss s1) (h_pos h1 mod ss s1) data) ;;
  let h2 := h_at h1 (h_pos h1 + zlen data) in
  guard (h_pos h2 <=? e_size (ents s2 (h_ent h2))) else AssertionError ;;
  Ok (s2, h2).

(** A stand-in for allocate where it cannot be called: the data fits (no counterpart in the code) *)
Definition no_alloc (s : cfb) (h : handle) (n : Z) : result (cfb * handle) := Err OutOfFuel.

(** cfb.py:231-236 the allocation loop *)
Fixpoint alloc_loop (fuel : nat) (s : cfb) (h : handle) (mini : bool) (count : Z) : result (cfb * handle) :=
  if count <=? zlen (h_chain h) then Ok (s, h) else
  match fuel with
  | O => Err OutOfFuel
  | S n =>
    let start := match h_chain h with [] => None | _ => Some (last (h_chain h) 0) end in
    do (s1, sid) <- fat_chain_append s start mini ;;
    let h1 := h_with h (h_chain h ++ [sid]) in
    let s2 := match e_sid (ents s1 (h_ent h)) with None => set_sid s1 (h_ent h) (Some sid) | Some _ => s1 end in
    alloc_loop n s2 h1 mini count
  end.

(** cfb.py:207-241 allocate *)
Definition allocate (s : cfb) (h : handle) (size : Z) : result (cfb * handle) :=
  let e := h_ent h in
  let mini := is_mini_stream s e in
  do (s1, h1, mini1, saved) <-
    (if mini && (mmax s <=? size)
     then
       do (s1, h1, data) <- stream_read s (h_at h 0) (-1) ;;
       guard (zlen data =? e_size (ents s1 e)) else AssertionError ;;
       do s2 <- free_fat_chain s1 (e_sid (ents s1 e)) true ;;
       Ok (set_sid s2 e None, h_with h1 [], false, Some (data, h_pos h))
     else Ok (s, h, mini, None)) ;;
  let s2 := set_size s1 e size in
  let sec := sector_size s2 e in
  let count := (size + sec - 1) / sec in
  do (s3, h3) <- alloc_loop (Z.to_nat (count - zlen (h_chain h1))) s2 h1 mini1 count ;;
  match saved with
  | None => Ok (s3, h3)
  | Some (data, orig) =>
    do (s4, h4) <- write_gen no_alloc s3 (h_at h3 0) data ;;
    Ok (s4, h_at h4 (Z.min orig (zlen data)))
  end.

(** cfb.py:243-308 write *)
Definition stream_write (s : cfb) (h : handle) (data : list Z) : result (cfb * handle) :=
  write_gen allocate s h data.

(** cfb.py:112-116 the zero-filling loop of seek past the end *)
Fixpoint pad_loop (fuel : nat) (s : cfb) (h : handle) (offset left : Z) : result (cfb * handle) :=
  if left =? 0 then Ok (s, h) else
  match fuel with
  | O => Err OutOfFuel
  | S n =>
    let k := Z.min (ss s * 4) (offset - e_size (ents s (h_ent h))) in
    do (s1, h1) <- stream_write s h (zeros k) ;;
    pad_loop n s1 h1 offset (left - k)
  end.

(** io.SEEK_SET, io.SEEK_CUR, io.SEEK_END (cfb.py:98-116) *)
Inductive whence := SEEK_SET | SEEK_CUR | SEEK_END.

(** cfb.py:97-118 seek *)
Definition stream_seek (s : cfb) (h : handle) (offset : Z) (w : whence) : result (cfb * handle * Z) :=
  let size := e_size (ents s (h_ent h)) in
  let off := match w with SEEK_SET => offset | SEEK_CUR => h_pos h + offset | SEEK_END => size + offset end in
  guard (0 <=? off) else ValueError ;;
  do (s1, h1) <- (if size <? off
                  then pad_loop (Z.to_nat (off - size)) s (h_at h size) off (off - size)
                  else Ok (s, h)) ;;
  Ok (s1, h_at h1 off, off).

(** cfb.py:310-369 truncate; None is the default argument *)
Definition stream_truncate (s : cfb) (h : handle) (arg : option Z) : result (cfb * handle) :=
  let e := h_ent h in
  let size := match arg with Some n => n | None => h_pos h end in
  let cur := e_size (ents s e) in
  let mini := is_mini_stream s e in
  if size =? 0 then
    do s1 <- free_fat_chain s (e_sid (ents s e)) mini ;;
    Ok (set_size (set_sid s1 e None) e 0, mkh e 0 [])
  else if cur <? size then allocate s h size
  else if (size <? mmax s) && negb mini && negb (e =? 0) then
    do (s1, h1, data) <- stream_read s (h_at h 0) size ;;
    do s2 <- free_fat_chain s1 (e_sid (ents s1 e)) false ;;
    let s3 := set_size (set_sid s2 e None) e 0 in
    do (s4, h4) <- stream_write s3 (mkh e 0 []) data ;;
    guard (e_size (ents s4 e) =? size) else AssertionError ;;
    Ok (s4, h_at h4 (Z.min (h_pos h) size))
  else
    let sec := if mini then mss s else ss s in
    let count := (size + sec - 1) / sec in
    do (s1, ch) <-
      (if count <? zlen (h_chain h) then
         match znth (h_chain h) (count - 1), znth (h_chain h) count with
         | Some l, Some nx =>
           do s1 <- free_fat_chain s (Some nx) mini ;;
           Ok (set_table s1 mini (zupd (table s1 mini) l ENDOFCHAIN), ztake count (h_chain h))
         | _, _ => Err IndexError
         end
       else Ok (s, h_chain h)) ;;
    Ok (set_size s1 e size, mkh e (Z.min (h_pos h) size) ch).

(** cfb.py:2156-2162 open(path, 'w') on an existing stream: its content is dropped *)
Definition stream_reset (s : cfb) (e : Z) : result (cfb * handle) :=
  do s1 <- free_fat_chain s (e_sid (ents s e)) (e_size (ents s e) <? mmax s) ;;
  let s2 := set_size (set_sid s1 e None) e 0 in
  do h <- stream_open s2 e ;;
  Ok (s2, h).

(** ** Directory sectors and ids *)

(** cfb.py:1741-1758 next_free_dir_id *)
Fixpoint next_free_dir_id_f (fuel : nat) (s : cfb) : result (cfb * Z) :=
  match fuel with
  | O => Err OutOfFuel
  | S n =>
    match dir_free s with
    | i :: rest => Ok (set_dir s (dir_chain s) (dir_cnt s) rest, i)
    | [] =>
      match dir_chain s with
      | [] => Err IndexError
      | _ =>
        do (s1, sect) <- fat_chain_append s (Some (last (dir_chain s) 0)) false ;;
        let c := dir_chain s1 ++ [sect] in
        let first := (zlen c - 1) * ss s1 / 128 in
        next_free_dir_id_f n (set_dir s1 c (dir_cnt s1 + 1) (dir_free s1 ++ zseq first (ss s1 / 128)))
      end
    end
  end.
(** cfb.py:1741-1758 next_free_dir_id: the loop grows the directory at most once *)
Definition next_free_dir_id (s : cfb) : result (cfb * Z) := next_free_dir_id_f 2 s.

(** cfb.py:1849-1852 the part of create_dir_entry that takes an id and makes the fresh entry
    (DirEntry.__init__ 472-487: no sector, size zero); linking it into the tree is in RBModel.v *)
Definition entry_new (s : cfb) : result (cfb * Z) :=
  do (s1, i) <- next_free_dir_id s ;;
  Ok (set_size (set_sid s1 i None) i 0, i).

(** cfb.py:1898-1903 the part of remove, for a stream, that gives back its sectors and its id
    (free_dir_entry 1862-1877). Simplification: the code leaves the entry object, which nothing
    can reach any more, as it was; here it is made blank at once instead of when the id is
    used again. *)
Definition stream_remove (s : cfb) (e : Z) : result cfb :=
  do s1 <- free_fat_chain s (e_sid (ents s e)) (e_size (ents s e) <? mmax s) ;;
  let s2 := set_size (set_sid s1 e None) e 0 in
  Ok (set_dir s2 (dir_chain s2) (dir_cnt s2) (dir_free s2 ++ [e])).

(** cfb.py:1185-1237 setup_empty for a new file; the header and the first directory sector
    (1129-1142) are written by the caller and modelled in CfbSave.v *)
Definition setup_empty (sector : Z) (cap : nat) (f : list Z) : cfb :=
  let n := Z.to_nat (sector / 4) in
  mkcfb sector 64 4096 f
    (ENDOFCHAIN :: FATSECT :: repeat FREESECT (n - 2))
    (zseq 2 (sector / 4 - 2))
    [1 :: repeat FREESECT 108] FREESECT 0 1
    [] [] FREESECT 0 [] [] [0] 1 [] cap [] (fun _ => mkent None 0).
