(** Saving and reopening a compound file: the header, the tables and the directory of
    src/aaf2/cfb.py (1067-1075, 1078-1183, 1240-1562), and a client that closes and reopens. *)
From Verif Require Import Base Codec ObjModel DirEntryModel LRUModel CfbModel.
From Coq Require Import ZArith List Bool.
Import ListNotations.
Open Scope Z_scope.
Set Warnings "-ambiguous-paths".

(** cfb.py:57-60 fat_sector_types, as used in "not isinstance(fat_sector_types.get(sid, sid), int)" *)
Definition is_mark (sid : Z) : bool :=
  (sid =? DIFSECT) || (sid =? FATSECT) || (sid =? ENDOFCHAIN) || (sid =? FREESECT).

(** ** The header *)

(** The attributes write_header stores (cfb.py:1240-1271) and read_header sets (1273-1349) *)
Record header : Type := mkhdr {
  h_class : list Z; h_minor : Z; h_major : Z; h_ss : Z; h_mss : Z;
  h_dir_cnt : Z; h_fat_cnt : Z; h_dir_start : Z; h_sig : Z; h_mmax : Z;
  h_mf_start : Z; h_mf_cnt : Z; h_df_start : Z; h_df_cnt : Z; h_difat : list Z }.

(** cfb.py:1245, 1281 *)
Definition magic : list Z := [208; 207; 17; 224; 161; 177; 26; 225].

(** cfb.py:1240-1271 write_header, the bytes written at 0. int(math.log(x, 2)) is Z.log2 x, exact
    for the sizes the code accepts (512, 4096 and 64). *)
Definition header_bytes (h : header) : result (list Z) :=
  do a <- pack_u 2 (h_minor h) ;;
  do b <- pack_u 2 (h_major h) ;;
  do c <- pack_u 2 65534 ;;
  do d <- pack_u 2 (Z.log2 (h_ss h)) ;;
  do e <- pack_u 2 (Z.log2 (h_mss h)) ;;
  do f <- cat_map (pack_u 4) [h_dir_cnt h; h_fat_cnt h; h_dir_start h; h_sig h; h_mmax h;
                              h_mf_start h; h_mf_cnt h; h_df_start h; h_df_cnt h] ;;
  guard (109 <=? zlen (h_difat h)) else IndexError ;;
  do g <- cat_map (pack_u 4) (ztake 109 (h_difat h)) ;;
  let r := magic ++ h_class h ++ a ++ b ++ c ++ d ++ e ++ zeros 6 ++ f ++ g in
  Ok (r ++ zeros (h_ss h - zlen r)).

(** a loop of read_u32le (utils.py:36-37) *)
Fixpoint rd_words (n : nat) (l : list Z) : result (list Z * list Z) :=
  match n with
  | O => Ok ([], l)
  | S m => do (v, r) <- rd_u 4 l ;; do (vs, r1) <- rd_words m r ;; Ok (v :: vs, r1)
  end.

(** cfb.py:1273-1349 read_header up to the loop over the DIFAT sectors *)
Definition parse_header (f : list Z) : result header :=
  let '(mg, r0) := rd 8 f in
  guard (zlist_eqb mg magic) else CompoundError ;;
  let '(cls, r1) := rd 16 r0 in
  do (minor, r2) <- rd_u 2 r1 ;;
  do (major, r3) <- rd_u 2 r2 ;;
  do (order, r4) <- rd_u 2 r3 ;;
  guard (order =? 65534) else NotImplemented ;;
  do (size, r5) <- rd_u 2 r4 ;;
  do (msize, r6) <- rd_u 2 r5 ;;
  guard ((2 ^ size =? 4096) || (2 ^ size =? 512)) else NotImplemented ;;
  guard (2 ^ msize =? 64) else NotImplemented ;;
  let '(_, r7) := rd 6 r6 in
  do (dc, r8) <- rd_u 4 r7 ;;
  do (fc, r9) <- rd_u 4 r8 ;;
  do (ds, r10) <- rd_u 4 r9 ;;
  do (sg, r11) <- rd_u 4 r10 ;;
  do (mx, r12) <- rd_u 4 r11 ;;
  do (ms, r13) <- rd_u 4 r12 ;;
  do (mc, r14) <- rd_u 4 r13 ;;
  do (fs, r15) <- rd_u 4 r14 ;;
  do (fn, r16) <- rd_u 4 r15 ;;
  do (d0, _) <- rd_words 109 r16 ;;
  Ok (mkhdr cls minor major (2 ^ size) (2 ^ msize) dc fc ds sg mx ms mc fs fn d0).

(** cfb.py:1351-1371 the DIFAT sectors; [n] is sectors_left *)
Fixpoint read_rows (n : nat) (f : list Z) (ssz sid : Z) : result (list (list Z)) :=
  match n with
  | O => Ok []
  | S m =>
    if is_mark sid then Ok [] else
    do (row, _) <- rd_words (Z.to_nat (ssz / 4)) (zdrop ((sid + 1) * ssz) f) ;;
    do rest <- read_rows m f ssz (last row 0) ;;
    Ok (row :: rest)
  end.

(** ** Tables *)

(** cfb.py:1384-1413 write_difat, the loop over difat[1:] *)
Fixpoint write_rows (f : list Z) (ssz sid : Z) (rows : list (list Z)) : result (list Z) :=
  match rows with
  | [] => Ok f
  | table :: rest =>
    guard (negb (is_mark sid)) else GenericError ;;
    guard (ssz / 4 <=? zlen table) else IndexError ;;
    do b <- cat_map (pack_u 4) (ztake (ssz / 4) table) ;;
    write_rows (fwrite f ((sid + 1) * ssz) b) ssz (last table 0) rest
  end.

(** cfb.py:1384-1413 write_difat *)
Definition write_difat (f : list Z) (ssz : Z) (difat : list (list Z)) (start cnt : Z) : result (list Z) :=
  let row0 := hd [] difat in
  guard (109 <=? zlen row0) else IndexError ;;
  do d0 <- cat_map (pack_u 4) (ztake 109 row0) ;;
  let f1 := fwrite f 76 (d0 ++ zeros (ssz - (76 + zlen d0))) in
  if cnt =? 0 then Ok f1 else
  guard (zlen (tl difat) =? cnt) else AssertionError ;;
  write_rows f1 ssz start (tl difat).

(** cfb.py:1418-1426, 1461-1466 the sectors of the table named by the DIFAT *)
Definition fat_sectors (difat : list (list Z)) : list Z := filter (fun sid => negb (is_mark sid)) (iter_difat difat).

(** cfb.py:1471-1479 and 1513-1519: one slice of the table per sector *)
Fixpoint write_table (f : list Z) (ssz : Z) (sids tbl : list Z) : result (list Z) :=
  match sids with
  | [] => Ok f
  | sid :: r =>
    let chunk := ztake (ssz / 4) tbl in
    guard (zlen chunk =? ssz / 4) else StructError ;;
    do b <- cat_map (pack_u 4) chunk ;;
    write_table (fwrite f ((sid + 1) * ssz) b) ssz r (zdrop (ssz / 4) tbl)
  end.

(** cfb.py:1452-1479 write_fat *)
Definition write_fat (f : list Z) (ssz : Z) (difat : list (list Z)) (fat : list Z) : result (list Z) :=
  guard (zlen fat * 4 mod ssz =? 0) else AssertionError ;;
  let fs := fat_sectors difat in
  guard (zlen fs =? zlen fat * 4 / ssz) else AssertionError ;;
  write_table f ssz fs fat.

(** cfb.py:1506-1519 write_minifat *)
Definition write_minifat (f : list Z) (ssz : Z) (fat minifat : list Z) (start : Z) : result (list Z) :=
  do ch <- get_fat_chain fat (Some start) ;; write_table f ssz ch minifat.

(** cfb.py:1067-1075 extend_sid_table for a buffered file: array.frombytes(f.read(size)) refuses a
    length that is not a multiple of 4; byte order as on a little-endian machine or swapped
    afterwards (1436-1437) *)
Fixpoint words_of (n : nat) (l : list Z) : list Z :=
  match n with O => [] | S m => le_val (ztake 4 l) :: words_of m (zdrop 4 l) end.
(** array.frombytes, cfb.py:1067-1075 *)
Definition frombytes (l : list Z) : result (list Z) :=
  guard (zlen l mod 4 =? 0) else ValueError ;; Ok (words_of (Z.to_nat (zlen l / 4)) l).

(** cfb.py:1431-1434 and 1486-1490 *)
Fixpoint read_table (f : list Z) (ssz : Z) (sids : list Z) : result (list Z) :=
  match sids with
  | [] => Ok []
  | sid :: r =>
    do a <- frombytes (fread f ((sid + 1) * ssz) ssz) ;;
    do b <- read_table f ssz r ;;
    Ok (a ++ b)
  end.

(** cfb.py:1439-1441 and 1496-1500: the positions of FREESECT *)
Fixpoint free_from (i : Z) (tbl : list Z) : list Z :=
  match tbl with
  | [] => []
  | v :: r => if v =? FREESECT then i :: free_from (i + 1) r else free_from (i + 1) r
  end.

(** cfb.py:1155-1157 and 1172-1174: the loop variable after
    "for i, v in enumerate(reversed(table)): if v != FREESECT: break"; unbound for an empty table *)
Fixpoint scan_free (l : list Z) (i : Z) : Z :=
  match l with
  | [] => i - 1
  | v :: r => if v =? FREESECT then scan_free r (i + 1) else i
  end.
(** cfb.py:1155-1157, 1172-1174 *)
Definition trailing_free (tbl : list Z) : result Z :=
  match tbl with [] => Err NameError | _ => Ok (scan_free (rev tbl) 0) end.

(** ** The directory *)

(** cfb.py:469-489 the 128 bytes of an entry: the 116 bytes before the start sector, then the
    start sector (641-649) and the size (651-659), which the stream layer holds in [ents] *)
Definition image (rest : list Z) (e : entry) : list Z :=
  rest ++ le_bytes 4 (encode_sid (e_sid e)) ++ le_bytes 8 (e_size e).

(** cfb.py:1703-1711 dir_entry_pos, and the same computation in 1525-1531 and 1551-1556 *)
Definition slot_pos (s : cfb) (i : Z) : option Z :=
  match znth (dir_chain s) (i * 128 / ss s) with
  | Some sid => Some ((sid + 1) * ss s + i * 128 mod ss s)
  | None => None
  end.

(** sorted() of a list of ids *)
Fixpoint insert_id (i : Z) (l : list Z) : list Z :=
  match l with [] => [i] | x :: r => if i <=? x then i :: l else x :: insert_id i r end.
(** sorted(), cfb.py:1524, 1551 *)
Definition sort_ids (l : list Z) : list Z := fold_right insert_id [] l.

(** cfb.py:1525-1540 the loop body of write_modified_dir_entries for [d] = entry.data *)
Definition write_slot (s : cfb) (i : Z) (d : list Z) : result cfb :=
  match znth (dir_chain s) (i * 128 / ss s) with
  | None => Err IndexError
  | Some sid => Ok (write_at s sid (i * 128 mod ss s) d)
  end.
(** cfb.py:1524-1541, 1551-1560: the loops over ids *)
Fixpoint write_slots (s : cfb) (ids : list Z) (img : Z -> list Z) : result cfb :=
  match ids with
  | [] => Ok s
  | i :: r => do s1 <- write_slot s i (img i) ;; write_slots s1 r img
  end.

(** The file object: the stream layer, the header attributes it does not use, the first 116 bytes
    of every entry and the ids in self.modified (cfb.py:1095). An entry object is looked up by its
    id: that the objects behind one id always agree is C14. *)
Record cfile : Type := mkcf {
  c_s : cfb; c_class : list Z; c_minor : Z; c_major : Z; c_dstart : Z; c_sig : Z;
  c_rest : Z -> list Z; c_mod : list Z }.
(** assignments to attributes of the stream layer *)
Definition with_s (c : cfile) (s : cfb) : cfile :=
  mkcf s (c_class c) (c_minor c) (c_major c) (c_dstart c) (c_sig c) (c_rest c) (c_mod c).
(** self.modified (cfb.py:1095) *)
Definition with_mod (c : cfile) (m : list Z) : cfile :=
  mkcf (c_s c) (c_class c) (c_minor c) (c_major c) (c_dstart c) (c_sig c) (c_rest c) m.
(** entry.data *)
Definition img_of (c : cfile) (i : Z) : list Z := image (c_rest c i) (ents (c_s c) i).

(** cfb.py:1521-1542 write_modified_dir_entries *)
Definition flush (c : cfile) : result cfile :=
  do s1 <- write_slots (c_s c) (sort_ids (c_mod c)) (img_of c) ;;
  Ok (with_mod (with_s c s1) []).

(** cfb.py:1544-1562 write_dir_entries: then every free id is cleared. This second loop leaves
    the sector cache alone; the file is closed next, so the cache is not used again. *)
Definition write_dir_entries (c : cfile) : result cfile :=
  do c1 <- flush c ;;
  do s1 <- write_slots (c_s c1) (sort_ids (dir_free (c_s c1))) (fun _ => zeros 128) ;;
  Ok (with_s c1 s1).

(** ** close *)

(** cfb.py:1148-1166 the size of the mini stream is set and its container truncated *)
Definition close_mini (s : cfb) : result cfb :=
  match e_sid (ents s 0) with
  | None => Ok s
  | Some _ =>
    do i <- trailing_free (minifat s) ;;
    let size := (zlen (minifat s) - i) * mss s in
    let s1 := CfbModel.set_size s 0 size in
    do h <- stream_open s1 0 ;;
    do (s2, _) <- stream_truncate s1 h (Some size) ;;
    Ok s2
  end.

(** cfb.py:1241-1271: the attributes that write_header writes *)
Definition header_of (c : cfile) : header :=
  let s := c_s c in
  mkhdr (c_class c) (c_minor c) (c_major c) (ss s) (mss s) (dir_cnt s) (fat_cnt s) (c_dstart c) (c_sig c)
        (mmax s) (minifat_start s) (minifat_cnt s) (difat_start s) (difat_cnt s) (hd [] (difat s)).

(** cfb.py:1168-1171 and 1240-1519: the header and the tables *)
Definition write_tables (c : cfile) : result (list Z) :=
  let s := c_s c in
  do hb <- header_bytes (header_of c) ;;
  let f1 := fwrite (file s) 0 hb in
  do f2 <- write_difat f1 (ss s) (difat s) (difat_start s) (difat_cnt s) ;;
  do f3 <- write_fat f2 (ss s) (difat s) (fat s) ;;
  write_minifat f3 (ss s) (fat s) (minifat s) (minifat_start s).

(** f.seek(pos); f.truncate() on a file object: longer files are cut, shorter ones extended *)
Definition ftruncate (f : list Z) (pos : Z) : list Z := ztake pos f ++ zeros (pos - zlen f).

(** cfb.py:1144-1183 close; the result is the content of the file. The root entry is in
    self.modified when its size was assigned. *)
Definition close (c : cfile) : result (list Z) :=
  do s1 <- close_mini (c_s c) ;;
  let c1 := with_mod (with_s c s1) (match e_sid (ents (c_s c) 0) with None => c_mod c
                                    | Some _ => if existsb (Z.eqb 0) (c_mod c) then c_mod c else 0 :: c_mod c end) in
  do f <- write_tables c1 ;;
  do c2 <- write_dir_entries (with_s c1 (set_file s1 f)) ;;
  do i <- trailing_free (fat (c_s c2)) ;;
  Ok (ftruncate (file (c_s c2)) ((zlen (fat (c_s c2)) - i + 1) * ss (c_s c2))).

(** ** Opening an existing file *)

(** cfb.py:1712-1734 read_dir_entry: the bytes of slot [i], a file that ends early reads as zeros
    (1690-1692) *)
Definition slot_bytes (f : list Z) (ssz : Z) (chain : list Z) (i : Z) : option (list Z) :=
  if i <? 0 then None else
  match znth chain (i * 128 / ssz) with
  | Some sid => let got := fread f ((sid + 1) * ssz + i * 128 mod ssz) 128 in Some (got ++ zeros (128 - zlen got))
  | None => None
  end.

(** Entries are read when first used; nothing changes a slot before that, so the model decodes
    them when the file is opened. Simplification: a slot of type 0 (empty) is a blank entry; the
    code would show start sector 0 for it, but nothing links to such a slot. *)
Definition load_entry (f : list Z) (ssz : Z) (chain : list Z) (i : Z) : entry :=
  match slot_bytes f ssz chain i with
  | Some d => if byte_at d 66 =? 0 then mkent None 0 else mkent (decode_sid (unpack_from 4 d 116)) (unpack_from 8 d 120)
  | None => mkent None 0
  end.
(** the bytes of an entry before its start sector and size *)
Definition load_rest (f : list Z) (ssz : Z) (chain : list Z) (i : Z) : list Z :=
  match slot_bytes f ssz chain i with Some d => ztake 116 d | None => zeros 116 end.

(** What read_header, read_fat (cfb.py:1415-1450) and read_minifat (1481-1504) leave behind *)
Record tables : Type := mktab {
  t_hdr : header; t_difat : list (list Z); t_fat : list Z; t_ffree : list Z; t_fat_cnt : Z;
  t_mchain : list Z; t_minifat : list Z; t_mfree : list Z }.
(** cfb.py:1110-1114, 1415-1450, 1481-1504 *)
Definition read_tables (f : list Z) : result tables :=
  do h <- parse_header f ;;
  do rows <- read_rows (Z.to_nat (h_df_cnt h)) f (h_ss h) (h_df_start h) ;;
  let df := h_difat h :: rows in
  let fs := fat_sectors df in
  do ft <- read_table f (h_ss h) fs ;;
  do mch <- get_fat_chain ft (Some (h_mf_start h)) ;;
  do mf <- read_table f (h_ss h) mch ;;
  Ok (mktab h df ft (free_from 0 ft) (zlen fs) mch mf (free_from 0 mf)).

(** cfb.py:1078-1126 __init__ for the modes that read. [cap] is the capacity of the sector cache. *)
Definition open_file (f : list Z) (cap : nat) : result cfile :=
  do t <- read_tables f ;;
  let h := t_hdr t in
  do dch <- get_fat_chain (t_fat t) (Some (h_dir_start h)) ;;
  match dch with
  | [] => Err IndexError
  | sid0 :: _ =>
    let en := load_entry f (h_ss h) dch in
    do mini <- (if h_mf_cnt h =? 0 then Ok [] else get_fat_chain (t_fat t) (e_sid (en 0))) ;;
    let s := mkcfb (h_ss h) (h_mss h) (h_mmax h) f (t_fat t) (t_ffree t) (t_difat t) (h_df_start h) (h_df_cnt h) (t_fat_cnt t)
                   (t_minifat t) (t_mfree t) (h_mf_start h) (h_mf_cnt h) (t_mchain t) mini dch (zlen dch) [] cap [] en in
    let s1 := fst (read_sector_data s sid0) in
    Ok (mkcf s1 (h_class h) (h_minor h) (h_major h) (h_dir_start h) (h_sig h) (load_rest f (h_ss h) dch) [])
  end.

(** cfb.py:1127-1142 and 1185-1237 __init__ for a new file: the header, the root entry with the
    rest of its sector, and the table. [root] is the first 116 bytes of the root entry. *)
Definition create_file (sector : Z) (cap : nat) (f : list Z) (cls root : list Z) : result cfile :=
  guard ((sector =? 4096) || (sector =? 512)) else ValueError ;;
  let s := setup_empty sector cap f in
  let c := mkcf s cls 62 4 0 1 (fun i => if i =? 0 then root else zeros 116) [0] in
  do hb <- header_bytes (header_of c) ;;
  let f1 := fwrite (file s) 0 hb in
  let f2 := fwrite f1 sector (image root (ents s 0) ++ zeros (sector - 128)) in
  do f3 <- write_fat f2 sector (difat s) (fat s) ;;
  Ok (with_s c (set_file s f3)).
