(** Decoding the values of MXF header metadata, src/aaf2/mxf.py:35-142. A BytesIO is what is left to read of it. *)
From Verif Require Import Base Codec Text IdsModel TypesModel.
From Coq Require Import ZArith List Bool String.
Import ListNotations.
Open Scope Z_scope.

(** utils.py:12-14, 23-25, 34-36, 49-51 read_u8, read_u16be, read_u32be, read_u64be *)
Definition rdb (n : nat) (l : list Z) : result (Z * list Z) :=
  let b := ztake (Z.of_nat n) l in
  if zlen b =? Z.of_nat n then Ok (be_val b, zdrop (Z.of_nat n) l) else Err StructError.
(** utils.py:38-40 read_s32be *)
Definition rdb_s32 (l : list Z) : result (Z * list Z) := do x <- rdb 4 l ;; Ok (to_signed 4 (fst x), snd x).

(** mxf.py:40-43 read_strongref: None at the end of the data *)
Definition read_strongref (l : list Z) : option (list Z) * list Z :=
  let b := ztake 16 l in ((if zlen b =? 0 then None else Some (auid_of_be b)), zdrop 16 l).
(** mxf.py:51-52: the loop *)
Fixpoint read_refs (n : nat) (l : list Z) : list (option (list Z)) :=
  match n with O => [] | S k => let x := read_strongref l in fst x :: read_refs k (snd x) end.
(** mxf.py:46-53 decode_strong_ref_array; the size of an item is skipped *)
Definition decode_strong_ref_array (l : list Z) : result (list (option (list Z))) :=
  do x <- rdb 4 l ;; Ok (read_refs (Z.to_nat (fst x)) (zdrop 4 (snd x))).

(** what 'utf-16be' reads as 'utf-16le' reads *)
Fixpoint swap_pairs (l : list Z) : list Z := match l with a :: b :: t => b :: a :: swap_pairs t | _ => l end.
(** bytes.decode('utf-16le'): half a unit at the end is refused *)
Definition decode_le (d : list Z) : result (list Z) := guard (zlen d mod 2 =? 0) else UnicodeError ;; decode_strict d.
(** s.split('\x00')[0] *)
Fixpoint until_nul (s : list Z) : list Z := match s with [] => [] | c :: t => if c =? 0 then [] else c :: until_nul t end.
(** mxf.py:56-57 decode_utf16be *)
Definition decode_utf16be (d : list Z) : result (list Z) := do s <- decode_le (swap_pairs d) ;; Ok (until_nul s).

(** mxf.py:62-64 reverse_auid *)
Definition reverse_auid (a : list Z) : result (list Z) := auid_of_hex (zdrop 16 (auid_hex a) ++ ztake 16 (auid_hex a)).

(** s.rstrip('\x00') *)
Fixpoint drop_nul (s : list Z) : list Z := match s with [] => [] | c :: t => if c =? 0 then drop_nul t else s end.
(** s.rstrip('\x00') *)
Definition rstrip_nul (s : list Z) : list Z := rev (drop_nul (rev s)).
(** mxf.py:75-89: what decode_indirect_value returns *)
Inductive ind := IStr (s : list Z) | IInt (v : Z).
(** mxf.py:78, 81, 84: the three identifiers *)
Definition ind_le : string := "00060e2b-3401-0401-4c00-021001000000".
(** mxf.py:81 *)
Definition ind_be : string := "00060e2b-3401-0401-4201-100200000000".
(** mxf.py:84 *)
Definition ind_int : string := "00060e2b-3401-0401-4c00-070101000000".
(** typedef == AUID("...") *)
Definition is_auid (a : list Z) (s : string) : bool := match auid_of_hex (codes s) with Ok b => auid_eq a b | Err _ => false end.
(** mxf.py:75-89 decode_indirect_value. The number of an identifier of less than 16 bytes is an IndexError (auid.py:46). *)
Definition decode_indirect_value (d : list Z) : result (option ind) :=
  guard (zlen (ztake 16 d) =? 16) else IndexError ;;
  do t <- reverse_auid (auid_of_be (ztake 16 d)) ;;
  let checked (k : list Z -> result (option ind)) : result (option ind) :=
    match zdrop 16 d with [] => Err IndexError | b :: r => guard (b =? 1) else AssertionError ;; k r end in
  if is_auid t ind_le then checked (fun r => do s <- decode_le r ;; Ok (Some (IStr (rstrip_nul s))))
  else if is_auid t ind_be then checked (fun r => do s <- decode_le (swap_pairs r) ;; Ok (Some (IStr (rstrip_nul s))))
  else if is_auid t ind_int then checked (fun r => do v <- unpack_s 4 r ;; Ok (Some (IInt v)))
  else Ok None.

(** mxf.py:91-95 decode_rational. Simplification: the numbers instead of the text "%d/%d" of them. *)
Definition decode_rational (l : list Z) : result (Z * Z) := do x <- rdb 4 l ;; do y <- rdb 4 (snd x) ;; Ok (fst x, fst y).

(** mxf.py:97-110 decode_video_line_map *)
Definition decode_video_line_map (l : list Z) : result (list Z) :=
  do c <- rdb 4 l ;; do s <- rdb 4 (snd c) ;;
  if fst s =? 4 then
    do a <- (if 0 <? fst c then rdb_s32 (snd s) else Ok (0, snd s)) ;;
    do b <- (if 1 <? fst c then rdb_s32 (snd a) else Ok (0, snd a)) ;;
    Ok [fst a; fst b]
  else Ok [].

(** mxf.py:114-119: the loop of decode_pixel_layout *)
Fixpoint read_layout (n : nat) (l : list Z) : result (list (Z * Z)) :=
  match n with
  | O => Ok []
  | S k => do c <- rdb 1 l ;; do s <- rdb 1 (snd c) ;;
           if fst c =? 0 then Ok [] else do r <- read_layout k (snd s) ;; Ok ((fst c, fst s) :: r)
  end.
(** mxf.py:112-120 decode_pixel_layout *)
Definition decode_pixel_layout (l : list Z) : result (list (Z * Z)) := read_layout 8 l.

(** datetime.datetime: the number of days of a month *)
Definition days (y m : Z) : Z :=
  if m =? 2 then (if (y mod 4 =? 0) && (negb (y mod 100 =? 0) || (y mod 400 =? 0)) then 29 else 28)
  else if existsb (Z.eqb m) [4; 6; 9; 11] then 30 else 31.
(** datetime.datetime(...) raises ValueError outside of these *)
Definition date_ok (y m d h i s : Z) : bool :=
  (1 <=? y) && (y <=? 9999) && (1 <=? m) && (m <=? 12) && (1 <=? d) && (d <=? days y m) && (0 <=? h) && (h <? 24) && (0 <=? i) && (i <? 60) && (0 <=? s) && (s <? 60).
(** mxf.py:122-135 decode_timestamp; None is the present time *)
Definition decode_timestamp (l : list Z) : result (option (Z * Z * Z * Z * Z * Z)) :=
  do x <- rdb 8 l ;;
  let t := fst x in
  let y := Z.shiftr t 48 in let m := Z.land (Z.shiftr t 40) 255 in let d := Z.land (Z.shiftr t 32) 255 in
  let h := Z.land (Z.shiftr t 24) 255 in let i := Z.land (Z.shiftr t 16) 255 in let s := Z.land (Z.shiftr t 8) 255 in
  Ok (if date_ok y m d h i s then Some (y, m, d, h, i, s) else None).

(** mxf.py:138-142 decode_mob_id, of at least 32 bytes. Simplification: less is refused here. *)
Definition decode_mob_id (d : list Z) : result (list Z) :=
  guard (32 <=? zlen d) else IndexError ;;
  mob_of_urn (auid_repr (auid_of_be (ztake 16 d)) ++ auid_repr (auid_of_be (zdrop 16 d))).
