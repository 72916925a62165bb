(** The byte formats of objects: the properties stream, index streams, weak references, the weak
    reference table and generated names (core.py, properties.py, file.py, utils.py). *)
From Verif Require Import Base Codec Text TypesModel.
From Coq Require Import ZArith List Bool String.
Import ListNotations.
Open Scope Z_scope.

(** for x in l: out += f(x), stopping at the first exception *)
Fixpoint cat_map {A} (f : A -> result (list Z)) (l : list A) : result (list Z) :=
  match l with
  | [] => Ok []
  | x :: r => do a <- f x ;; do b <- cat_map f r ;; Ok (a ++ b)
  end.

(** ** The properties stream *)

(** One entry of property_entries: pid, format and data (None before a value is set) *)
Definition pentry : Type := Z * Z * option (list Z).

(** core.py 150-154: assert p.data is not None; pid, format, len(data) as u16 *)
Definition entry_head (p : pentry) : result (list Z) :=
  let '(pid, format, data) := p in
  match data with
  | None => Err AssertionError
  | Some d =>
    do a <- pack_u 2 pid ;; do b <- pack_u 2 format ;; do c <- pack_u 2 (zlen d) ;; Ok (a ++ b ++ c)
  end.
(** core.py 157-158 *)
Definition entry_data (p : pentry) : list Z := match snd p with Some d => d | None => [] end.

(** core.py 141-160: the bytes put into the stream. [ps] lists property_entries.values() in order. *)
Definition encode_properties (ps : list pentry) : result (list Z) :=
  do h1 <- pack_u 1 76 ;;                                     (* 0x4c *)
  do h2 <- pack_u 1 32 ;;                                     (* PROPERTY_VERSION *)
  do h3 <- pack_u 2 (zlen ps) ;;
  do t <- cat_map entry_head ps ;;
  Ok (h1 ++ h2 ++ h3 ++ t ++ flat_map entry_data ps).

(** core.py 135-161 write_properties without validation and index streams: the content of the
    "properties" stream before and after. The buffer is complete before s.write; write at offset 0
    followed by truncate leaves exactly the buffer (C01). *)
Definition write_properties (stream : list Z) (ps : list pentry) : list Z * result unit :=
  match encode_properties ps with
  | Ok d => (d, Ok tt)
  | Err e => (stream, Err e)
  end.

(** properties.py 1279-1291: keys of property_formats *)
Definition formats : list Z := [130; 66; 34; 50; 58; 2; 18; 26; 3; 134; 64].

(** array('H').frombytes: whole items only *)
Fixpoint u16_array (l : list Z) : result (list Z) :=
  match l with
  | [] => Ok []
  | [_] => Err ValueError
  | a :: b :: r => do t <- u16_array r ;; Ok (a + 256 * b :: t)
  end.

(** core.py 92-103: one iteration per entry *)
Fixpoint read_entries (n : nat) (i : Z) (props rest : list Z) (acc : list (Z * (Z * list Z)))
  : result (list (Z * (Z * list Z))) :=
  match n with
  | O => Ok acc
  | S n' =>
    match znth props (i * 3), znth props (i * 3 + 1), znth props (i * 3 + 2) with
    | Some pid, Some format, Some size =>
      let '(data, rest') := rd size rest in
      if existsb (Z.eqb format) formats
      then read_entries n' (i + 1) props rest' (dict_set Z.eqb acc pid (format, data))
      else Err KeyError
    | _, _, _ => Err IndexError
    end
  end.

(** core.py 70-103 read_properties up to the decode calls; returns (version, property_entries) *)
Definition read_properties (d : list Z) : result (Z * list (Z * (Z * list Z))) :=
  let '(h, r) := rd 4 d in
  guard (zlen h =? 4) else StructError ;;
  let byte_order := nth 0 h 0 in
  let version := nth 1 h 0 in
  let count := nth 2 h 0 + 256 * nth 3 h 0 in
  guard (byte_order =? 76) else NotImplemented ;;
  let '(t, r) := rd (6 * count) r in
  do props <- u16_array t ;;
  do es <- read_entries (Z.to_nat count) 0 props r [] ;;
  Ok (version, es).

(** ** Index streams *)

(** struct.unpack of [n] numbers of [k] bytes (properties.py:486-487) *)
Fixpoint rd_many (k n : nat) (l : list Z) : result (list Z * list Z) :=
  match n with
  | O => Ok ([], l)
  | S n' => do (v, r) <- rd_u k l ;; do (vs, r') <- rd_many k n' r ;; Ok (v :: vs, r')
  end.

(** properties.py 489-502 StrongRefVectorProperty.write_index *)
Definition vec_write (next last : Z) (refs : list Z) : result (list Z) :=
  do a <- pack_u 4 (zlen refs) ;; do b <- pack_u 4 next ;; do c <- pack_u 4 last ;;
  do d <- cat_map (pack_u 4) refs ;; Ok (a ++ b ++ c ++ d).
(** properties.py 469-486 read_index; struct.unpack("<%dI") needs all bytes *)
Definition vec_read (l : list Z) : result (Z * Z * list Z) :=
  do (count, l) <- rd_u 4 l ;; do (next, l) <- rd_u 4 l ;; do (last, l) <- rd_u 4 l ;;
  do (refs, _) <- rd_many 4 (Z.to_nat count) l ;; Ok (next, last, refs).

(** properties.py:744-767 the fields that the index stream of a set holds *)
Record set_index := SetIndex { si_next : Z; si_last : Z; si_pid : Z; si_size : Z; si_refs : list (list Z * Z) }.

(** properties.py 788-806 StrongRefSetProperty.write_index; a key is its bytes_le *)
Definition set_write (s : set_index) : result (list Z) :=
  do a <- pack_u 4 (zlen (si_refs s)) ;; do b <- pack_u 4 (si_next s) ;; do c <- pack_u 4 (si_last s) ;;
  do d <- pack_u 2 (si_pid s) ;; do e <- pack_u 1 (si_size s) ;;
  do f <- cat_map (fun kl => do x <- pack_u 4 (snd kl) ;; do y <- pack_u 4 1 ;; Ok (x ++ y ++ fst kl)) (si_refs s) ;;
  Ok (a ++ b ++ c ++ d ++ e ++ f).

(** properties.py 770-785 *)
Fixpoint set_items (n : nat) (size : Z) (l : list Z) (acc : list (list Z * Z)) : result (list (list Z * Z)) :=
  match n with
  | O => Ok acc
  | S n' =>
    do (local, l) <- rd_u 4 l ;; do (cnt, l) <- rd_u 4 l ;;
    let '(key, l) := rd size l in
    guard (cnt =? 1) else AssertionError ;;
    set_items n' size l (dict_set zlist_eqb acc key local)
  end.
(** properties.py 744-785 read_index on a fresh property; the struct is unpacked from all the
    remaining bytes at once, so their number must be exact *)
Definition set_read (l : list Z) : result set_index :=
  do (count, l) <- rd_u 4 l ;; do (next, l) <- rd_u 4 l ;; do (last, l) <- rd_u 4 l ;;
  do (pid, l) <- rd_u 2 l ;; do (size, l) <- rd_u 1 l ;;
  guard (size =? 16) || (size =? 32) else AssertionError ;;
  guard (zlen l =? count * (8 + size)) else StructError ;;
  do refs <- set_items (Z.to_nat count) size l [] ;;
  Ok (SetIndex next last pid size refs).

(** auid.py 11-12, 29-31 and mobid.py 177-182: AUID(bytes_le=data), MobID(bytes_le=data) *)
Definition key_of (size : Z) (data : list Z) : result (list Z) :=
  match data with
  | [] => if size =? 16 then Err TypeError else Ok (zeros 32)
  | _ => Ok data
  end.

(** properties.py 1156-1169 WeakRefArrayProperty.write_index *)
Definition weaks_write (index pid size : Z) (refs : list (list Z)) : result (list Z) :=
  do a <- pack_u 4 (zlen refs) ;; do b <- pack_u 2 index ;; do c <- pack_u 2 pid ;; do d <- pack_u 1 size ;;
  Ok (a ++ b ++ c ++ d ++ List.concat refs).
(** properties.py:1148-1153: the keys of the references *)
Fixpoint weak_items (n : nat) (size : Z) (l : list Z) : result (list (list Z)) :=
  match n with
  | O => Ok []
  | S n' => let '(d, l) := rd size l in do k <- key_of size d ;; do r <- weak_items n' size l ;; Ok (k :: r)
  end.
(** properties.py 1131-1153 read_index on a fresh property *)
Definition weaks_read (l : list Z) : result (Z * Z * Z * list (list Z)) :=
  do (count, l) <- rd_u 4 l ;; do (index, l) <- rd_u 2 l ;; do (pid, l) <- rd_u 2 l ;; do (size, l) <- rd_u 1 l ;;
  guard (size =? 16) || (size =? 32) else AssertionError ;;
  do refs <- weak_items (Z.to_nat count) size l ;; Ok (index, pid, size, refs).

(** properties.py 1045-1055 WeakRefProperty.encode *)
Definition weak_encode (index pid : Z) (ref : list Z) : result (list Z) :=
  let size := zlen ref in
  guard (size =? 16) || (size =? 32) else AssertionError ;;
  do a <- pack_u 2 index ;; do b <- pack_u 2 pid ;; do c <- pack_u 1 size ;; Ok (a ++ b ++ c ++ ref).
(** properties.py 1034-1043 WeakRefProperty.decode *)
Definition weak_decode (l : list Z) : result (Z * Z * Z * list Z) :=
  do (index, l) <- rd_u 2 l ;; do (pid, l) <- rd_u 2 l ;; do (size, l) <- rd_u 1 l ;;
  guard (size =? 16) || (size =? 32) else AssertionError ;;
  let '(d, _) := rd size l in do k <- key_of size d ;; Ok (index, pid, size, k).

(** ** The weak reference table *)

(** file.py 296-304: list.index, or append *)
Fixpoint index_of (p : list Z) (t : list (list Z)) (i : Z) : option Z :=
  match t with [] => None | q :: r => if zlist_eqb q p then Some i else index_of p r (i + 1) end.
(** file.py:296-304 weakref_index *)
Definition weakref_index (t : list (list Z)) (p : list Z) : list (list Z) * Z :=
  match index_of p t 0 with
  | Some i => (t, i)
  | None => (t ++ [p], zlen t)
  end.

(** file.py 329-343 write_reference_properties; the stream was opened with 'w' and is empty *)
Definition table_write (t : list (list Z)) : result (list Z) :=
  let pid_count := fold_right (fun p n => zlen p + 1 + n) 0 t in
  do a <- pack_u 1 76 ;; do b <- pack_u 2 (zlen t) ;; do c <- pack_u 4 pid_count ;;
  do d <- cat_map (fun p => do x <- cat_map (pack_u 2) p ;; do z <- pack_u 2 0 ;; Ok (x ++ z)) t ;;
  Ok (a ++ b ++ c ++ d).
(** file.py 317-325 *)
Fixpoint table_pids (n : nat) (l : list Z) (t : list (list Z)) (path : list Z) : result (list (list Z)) :=
  match n with
  | O => Ok t
  | S n' =>
    do (pid, l) <- rd_u 2 l ;;
    if negb (pid =? 0) then table_pids n' l t (path ++ [pid]) else table_pids n' l (t ++ [path]) []
  end.
(** file.py 306-326 read_reference_properties *)
Definition table_read (l : list Z) : result (list (list Z)) :=
  do (bo, l) <- rd_u 1 l ;;
  guard (bo =? 76) else NotImplemented ;;
  do (path_count, l) <- rd_u 2 l ;; do (pid_count, l) <- rd_u 4 l ;;
  do t <- table_pids (Z.to_nat pid_count) l [] [] ;;
  guard (zlen t =? path_count) else AssertionError ;; Ok t.

(** ** Names *)

(** utils.py 182-197 squeeze_name *)
Definition squeeze_name (name : list Z) (size : Z) : list Z :=
  if zlen name <=? size then name else
  let half := size / 2 in
  map (fun i =>
         if i <? half then nth (Z.to_nat i) name 0
         else if i =? half then 45
         else nth (Z.to_nat (zlen name - (size - i))) name 0)
      (zseq 0 size).
(** utils.py 199-203 mangle_name *)
Definition mangle_name (name : list Z) (pid size : Z) : list Z :=
  let p := hex_str pid in
  squeeze_name name (size - zlen p - 1 - 1) ++ [45] ++ p.

(** properties.py 455-456, 746, 1133: index_name + " index" *)
Definition index_stream (index_name : list Z) : list Z := index_name ++ codes " index".
(** properties.py 508-509, 808-809: "%s{%x}" % (index_name, local_key) *)
Definition element_storage (index_name : list Z) (k : Z) : list Z := index_name ++ [123] ++ hex_str k ++ [125].
