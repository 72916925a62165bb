(** AUID and MobID: src/aaf2/auid.py and src/aaf2/mobid.py. *)
From Verif Require Import Base Codec Text.
From Coq Require Import ZArith List Bool String.
Import ListNotations.
Open Scope Z_scope.

(** ** AUID (auid.py:5-123). An AUID is its bytes_le. *)

(** auid.py:22, 34-35, 39-40: b[3::-1] + b[5:3:-1] + b[7:5:-1] + b[8:] *)
Definition swap_fields (b : list Z) : list Z :=
  rev (ztake 4 b) ++ rev (slice 4 6 b) ++ rev (slice 6 8 b) ++ zdrop 8 b.

(** auid.py:16-22, AUID(hex=s) *)
Definition auid_of_hex (s : list Z) : result (list Z) :=
  let s1 := del_sub (codes "uuid:") (del_sub (codes "urn:") s) in
  let s2 := del_sub (codes "-") (strip (codes "{}") s1) in
  guard (zlen s2 =? 32) else ValueError ;;
  do b <- fromhex s2 ;; Ok (swap_fields b).

(** auid.py:32-40, the bytes_be property and its setter *)
Definition auid_bytes_be (a : list Z) : list Z := swap_fields a.
(** auid.py:38-41, the setter of bytes_be *)
Definition auid_of_be (v : list Z) : list Z := swap_fields v.

(** auid.py:43-69, the int property: the byte added with each shift, in order *)
Definition auid_shifts : list (Z * Z) :=
  [(15, 0); (14, 8); (13, 16); (12, 24); (11, 32); (10, 40); (9, 48); (8, 56);
   (6, 64); (7, 72); (4, 80); (5, 88); (0, 96); (1, 104); (2, 112); (3, 120)].
(** auid.py:43-69, the int property *)
Definition auid_int (a : list Z) : Z :=
  fold_left (fun num p => num + Z.shiftl (nth (Z.to_nat (fst p)) a 0) (snd p)) auid_shifts 0.

(** auid.py:25-29, AUID(int=n); uuid.UUID(int=n) of the standard library refuses values outside
    0..2^128-1 with ValueError and holds n as 16 big-endian bytes *)
Definition auid_of_int (n : Z) : result (list Z) :=
  if n =? 0 then Ok (repeat 0 16)
  else guard ((0 <=? n) && (n <? 2 ^ 128)) else ValueError ;; Ok (swap_fields (be_bytes 16 n)).

(** auid.py:71-73 hex *)
Definition auid_hex (a : list Z) : list Z := hex_pad 32 (auid_int a).

(** auid.py:116-119 __repr__ *)
Definition auid_repr (a : list Z) : list Z :=
  let h := hex_pad 32 (auid_int a) in
  slice 0 8 h ++ codes "-" ++ slice 8 12 h ++ codes "-" ++ slice 12 16 h ++ codes "-" ++ slice 16 20 h ++ codes "-" ++ zdrop 20 h.

(** auid.py:79-103 data1..data4 *)
Definition auid_data1 (a : list Z) : Z := le_val (slice 0 4 a).
(** auid.py:87-91 *)
Definition auid_data2 (a : list Z) : Z := le_val (slice 4 6 a).
(** auid.py:93-97 *)
Definition auid_data3 (a : list Z) : Z := le_val (slice 6 8 a).
(** auid.py:99-101 *)
Definition auid_data4 (a : list Z) : list Z := zdrop 8 a.

(** auid.py:108-117 __eq__, __lt__ between AUIDs *)
Definition auid_eq (a b : list Z) : bool := zlist_eqb a b.
(** auid.py:111-114 __lt__ *)
Definition auid_lt (a b : list Z) : bool := auid_int a <? auid_int b.

(** ** MobID (mobid.py:175-467). A MobID is its 32 bytes. *)

(** utils.py:157-179 with byte_order='big' *)
Fixpoint int_from_be (len : Z) (i : Z) (data : list Z) : Z :=
  match data with
  | [] => 0
  | b :: t => Z.shiftl b ((len - i) * 8) + int_from_be len (i + 1) t
  end.
(** utils.py:157-169 int_from_bytes with byte_order='big' *)
Definition int_from_bytes_be (data : list Z) : Z := int_from_be (zlen data - 1) 0 data.
(** utils.py:171-180 bytes_from_int with byte_order='big' *)
Definition bytes_from_int_be (num len : Z) : list Z :=
  map (fun i => Z.land (Z.shiftr num ((len - 1 - i) * 8)) 255) (zseq 0 len).

(** bytearray item assignment: 0..255 only *)
Definition set_byte (m : list Z) (i v : Z) : result (list Z) :=
  guard ((0 <=? v) && (v <? 256)) else ValueError ;; Ok (zupd m i v).
(** struct.pack_into of [n] little-endian bytes *)
Definition pack_into (n : nat) (m : list Z) (off v : Z) : result (list Z) :=
  do d <- pack_u n v ;; Ok (splice off d m).
(** struct.pack_into of exactly [n] single bytes *)
Definition pack_bytes (n : Z) (m : list Z) (off : Z) (vs : list Z) : result (list Z) :=
  guard ((zlen vs =? n) && forallb (fun v => (0 <=? v) && (v <? 256)) vs) else StructError ;; Ok (splice off vs m).

(** mobid.py:197-278 the fields *)
Definition m_label (m : list Z) : list Z := slice 0 12 m.
(** mobid.py:216-218 *)
Definition m_length (m : list Z) : Z := nth 12 m 0.
(** mobid.py:224-226 *)
Definition m_high (m : list Z) : Z := nth 13 m 0.
(** mobid.py:232-234 *)
Definition m_mid (m : list Z) : Z := nth 14 m 0.
(** mobid.py:240-242 *)
Definition m_low (m : list Z) : Z := nth 15 m 0.
(** mobid.py:248-250 *)
Definition m_data1 (m : list Z) : Z := le_val (slice 16 20 m).
(** mobid.py:256-258 *)
Definition m_data2 (m : list Z) : Z := le_val (slice 20 22 m).
(** mobid.py:264-266 *)
Definition m_data3 (m : list Z) : Z := le_val (slice 22 24 m).
(** mobid.py:272-274 *)
Definition m_data4 (m : list Z) : list Z := slice 24 32 m.
(** mobid.py:197-202 *)
Definition m_material (m : list Z) : list Z := zdrop 16 m.

(** mobid.py:212-214 *)
Definition set_label (m : list Z) (v : list Z) := pack_bytes 12 m 0 v.
(** mobid.py:220-222 *)
Definition set_length (m : list Z) (v : Z) := set_byte m 12 v.
(** mobid.py:228-230 *)
Definition set_high (m : list Z) (v : Z) := set_byte m 13 v.
(** mobid.py:236-238 *)
Definition set_mid (m : list Z) (v : Z) := set_byte m 14 v.
(** mobid.py:244-246 *)
Definition set_low (m : list Z) (v : Z) := set_byte m 15 v.
(** mobid.py:252-254 *)
Definition set_data1 (m : list Z) (v : Z) := pack_into 4 m 16 v.
(** mobid.py:260-262 *)
Definition set_data2 (m : list Z) (v : Z) := pack_into 2 m 20 v.
(** mobid.py:268-270 *)
Definition set_data3 (m : list Z) (v : Z) := pack_into 2 m 22 v.
(** mobid.py:276-278 *)
Definition set_data4 (m : list Z) (v : list Z) := pack_bytes 8 m 24 v.
(** self.bytes_le[16:] = value.bytes_le *)
Definition set_material (m : list Z) (v : list Z) : list Z := ztake 16 m ++ v.

(** mobid.py:280-315: the dictionary form. Simplification: missing keys (which read as zero) are
    not modelled; a dictionary has all keys, as to_dict makes it. *)
Record mdict : Type := mkmd { k_label : list Z; k_length : Z; k_high : Z; k_mid : Z; k_low : Z;
  k_d1 : Z; k_d2 : Z; k_d3 : Z; k_d4 : list Z }.
(** mobid.py:298-315 to_dict *)
Definition to_dict (m : list Z) : mdict :=
  mkmd (m_label m) (m_length m) (m_high m) (m_mid m) (m_low m) (m_data1 m) (m_data2 m) (m_data3 m) (m_data4 m).
(** mobid.py:280-298, in the order of the code *)
Definition from_dict (m : list Z) (d : mdict) : result (list Z) :=
  do m <- set_length m (k_length d) ;;
  do m <- set_high m (k_high d) ;;
  do m <- set_mid m (k_mid d) ;;
  do m <- set_low m (k_low d) ;;
  do m <- set_data1 m (k_d1 d) ;;
  do m <- set_data2 m (k_d2 d) ;;
  do m <- set_data3 m (k_d3 d) ;;
  do m <- set_data4 m (k_d4 d) ;;
  set_label m (k_label d).

(** mobid.py:316-326 *)
Definition m_int (m : list Z) : Z := int_from_bytes_be m.
(** mobid.py:323-326, the setter of int *)
Definition m_of_int (v : Z) : list Z := bytes_from_int_be v 32.

(** mobid.py:331-354 *)
Definition m_eq (a b : list Z) : bool := zlist_eqb a b.
(** mobid.py:336-339 __lt__ *)
Definition m_lt (a b : list Z) : bool := m_int a <? m_int b.

(** mobid.py:367-371 / 435-439, the test for a material number stored half swapped *)
Definition half_swapped (l11 : Z) (d : list Z) : bool :=
  (l11 =? 0) && zlist_eqb (ztake 6 d) [6; 14; 43; 52; 127; 127].

(** mobid.py:359-405: the bytes as pairs of hexadecimal digits *)
Definition hex2s (l : list Z) : list Z := flat_map (hex_pad 2) l.
(** mobid.py:359-405: the separator *)
Definition dot : list Z := codes ".".

(** mobid.py:359-405 urn *)
Definition m_urn (m : list Z) : list Z :=
  let lab := m_label m in let d4 := m_data4 m in
  codes "urn:smpte:umid:" ++ hex2s (slice 0 4 lab) ++ dot ++ hex2s (slice 4 8 lab) ++ dot ++ hex2s (slice 8 12 lab) ++ dot ++
  hex_pad 2 (m_length m) ++ hex_pad 2 (m_high m) ++ hex_pad 2 (m_mid m) ++ hex_pad 2 (m_low m) ++ dot ++
  if half_swapped (nth 11 lab 0) d4 then
    hex2s (slice 0 4 d4) ++ dot ++ hex2s (slice 4 8 d4) ++ dot ++
    hex_pad 8 (m_data1 m) ++ dot ++ hex_pad 4 (m_data2 m) ++ hex_pad 4 (m_data3 m)
  else
    hex_pad 8 (m_data1 m) ++ dot ++ hex_pad 4 (m_data2 m) ++ hex_pad 4 (m_data3 m) ++ dot ++
    hex2s (slice 0 4 d4) ++ dot ++ hex2s (slice 4 8 d4).

(** [int(s[start+2*i : start+2*i+2], 16) for i in range(n)], the loops of mobid.py:416-421 etc. *)
Fixpoint hex_list (n : nat) (s : list Z) (start : Z) : result (list Z) :=
  match n with
  | O => Ok []
  | S k => do v <- int16 (slice start (start + 2) s) ;; do l <- hex_list k s (start + 2) ;; Ok (v :: l)
  end.

(** mobid.py:407-462 the urn setter *)
Definition m_set_urn (m : list Z) (value : list Z) : result (list Z) :=
  let s := fold_left (fun s item => del_sub item s) [codes "urn:smpte:umid:"; codes "."; codes "-"; codes "0x"] (lower value) in
  guard (zlen s =? 64) else AssertionError ;;
  do lab <- hex_list 12 s 0 ;;
  do m <- set_label m lab ;;
  do v <- int16 (slice 24 26 s) ;; do m <- set_length m v ;;
  do v <- int16 (slice 26 28 s) ;; do m <- set_high m v ;;
  do v <- int16 (slice 28 30 s) ;; do m <- set_mid m v ;;
  do v <- int16 (slice 30 32 s) ;; do m <- set_low m v ;;
  do data <- hex_list 6 s 32 ;;
  if half_swapped (nth 11 lab 0) data then
    do d4 <- hex_list 8 s 32 ;;
    do m <- set_data4 m d4 ;;
    do v <- int16 (slice 48 56 s) ;; do m <- set_data1 m v ;;
    do v <- int16 (slice 56 60 s) ;; do m <- set_data2 m v ;;
    do v <- int16 (slice 60 64 s) ;; set_data3 m v
  else
    do v <- int16 (slice 32 40 s) ;; do m <- set_data1 m v ;;
    do v <- int16 (slice 40 44 s) ;; do m <- set_data2 m v ;;
    do v <- int16 (slice 44 48 s) ;; do m <- set_data3 m v ;;
    do d4 <- hex_list 8 s 48 ;;
    set_data4 m d4.

(** mobid.py:177-188, MobID(urn) *)
Definition mob_of_urn (value : list Z) : result (list Z) := m_set_urn (repeat 0 32) value.
