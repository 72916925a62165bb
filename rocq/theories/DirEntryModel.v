(** Directory entries of the compound file: the class DirEntry of src/aaf2/cfb.py (469-659) with
    its 128 byte image. mark_modified (cfb.py:661-670) is not part of this file: see DirCacheModel. *)
From Verif Require Import Base Codec IdsModel.
From Coq Require Import ZArith List Bool String.
Import ListNotations.
Open Scope Z_scope.

(** cfb.py:470: the slots data and _name; [None] is the sentinel of cfb.py:489. *)
Record dent : Type := mkde { de_data : list Z; de_name : option (list Z) }.

(** utils.py:60-63 decode_sid and 69-72 encode_sid *)
Definition decode_sid (sid : Z) : option Z := if sid =? 4294967295 then None else Some sid.
(** utils.py:69-72 encode_sid *)
Definition encode_sid (sid : option Z) : Z := match sid with None => 4294967295 | Some v => v end.

(** utils.py:134-155 unpack_u16le_from, unpack_u32le_from, unpack_u64le_from: the bytes at
    offset, added with shifts. The image always has 128 bytes, so no IndexError. *)
Definition unpack_from (n : Z) (d : list Z) (off : Z) : Z := le_val (slice off (off + n) d).

(** struct.pack_into(fmt, data, off, v) *)
Definition pack_at (n : nat) (off v : Z) (d : list Z) : result (list Z) :=
  do b <- pack_u n v ;; Ok (splice off b d).

(** data[i] of a bytearray of 128 bytes *)
Definition byte_at (d : list Z) (i : Z) : Z := match znth d i with Some b => b | None => 0 end.

(** cfb.py:40-45 dir_types *)
Definition dir_types : list (Z * string) :=
  [(0, "empty"%string); (1, "storage"%string); (2, "stream"%string); (3, "lock bytes"%string);
   (4, "property"%string); (5, "root storage"%string)].

(** cfb.py:491-499 the name property: the cached name, or the decoded one, which is then cached *)
Definition get_name (e : dent) : result (dent * list Z) :=
  match de_name e with
  | Some n => Ok (e, n)
  | None =>
      let name_size := unpack_from 2 (de_data e) 64 in
      guard (name_size <=? 64) else AssertionError ;;
      let name := decode_utf16le (slice 0 name_size (de_data e)) in
      Ok (mkde (de_data e) (Some name), name)
  end.

(** cfb.py:501-514 the name setter *)
Definition set_name (e : dent) (value : list Z) : result dent :=
  do name_data <- encode_utf16 value ;;
  let name_size := zlen name_data in
  guard (name_size <=? 64) else AssertionError ;;
  let d1 := splice 0 name_data (de_data e) in
  let d2 := splice name_size (zeros (64 - name_size)) d1 in
  do d3 <- pack_at 2 64 (Z.min (name_size + 2) 64) d2 ;;
  Ok (mkde d3 (Some value)).

(** cfb.py:516-518 *)
Definition get_type (e : dent) : string :=
  match find (fun kv => fst kv =? byte_at (de_data e) 66) dir_types with
  | Some kv => snd kv
  | None => "unknown"%string
  end.

(** cfb.py:520-531 *)
Definition set_type (e : dent) (value : string) : result dent :=
  match find (fun kv => String.eqb (snd kv) value) dir_types with
  | Some kv => Ok (mkde (splice 66 [fst kv] (de_data e)) (de_name e))
  | None => Err ValueError
  end.

(** cfb.py:533-537 *)
Definition get_color (e : dent) : string :=
  if byte_at (de_data e) 67 =? 1 then "black"%string else "red"%string.

(** cfb.py:539-548 *)
Definition set_color (e : dent) (value : string) : result dent :=
  if String.eqb value "black" then Ok (mkde (splice 67 [1] (de_data e)) (de_name e))
  else if String.eqb value "red" then Ok (mkde (splice 67 [0] (de_data e)) (de_name e))
  else Err ValueError.

(** cfb.py:550-563 *)
Definition get_red (e : dent) : bool := if byte_at (de_data e) 67 =? 1 then false else true.
(** cfb.py:556-563 *)
Definition set_red (e : dent) (value : bool) : dent :=
  mkde (splice 67 [if value then 0 else 1] (de_data e)) (de_name e).

(** cfb.py:565-594 and 641-649: left_id, right_id, child_id, sector_id *)
Definition get_sid (off : Z) (e : dent) : option Z := decode_sid (unpack_from 4 (de_data e) off).
(** the setters, cfb.py:570-573, 581-584, 591-594, 646-649 *)
Definition set_sid (off : Z) (e : dent) (value : option Z) : result dent :=
  do d <- pack_at 4 off (encode_sid value) (de_data e) ;; Ok (mkde d (de_name e)).
(** cfb.py:565-568 *)
Definition get_left_id : dent -> option Z := get_sid 68.
(** cfb.py:575-579 *)
Definition get_right_id : dent -> option Z := get_sid 72.
(** cfb.py:586-589 *)
Definition get_child_id : dent -> option Z := get_sid 76.
(** cfb.py:641-644 *)
Definition get_sector_id : dent -> option Z := get_sid 116.
(** cfb.py:570-573 *)
Definition set_left_id : dent -> option Z -> result dent := set_sid 68.
(** cfb.py:581-584 *)
Definition set_right_id : dent -> option Z -> result dent := set_sid 72.
(** cfb.py:591-594 *)
Definition set_child_id : dent -> option Z -> result dent := set_sid 76.
(** cfb.py:646-649 *)
Definition set_sector_id : dent -> option Z -> result dent := set_sid 116.

(** cfb.py:596-609; an AUID is its bytes_le (IdsModel). self.data[80:96] = value.bytes_le replaces
    the slice; an AUID object of other than 16 bytes would change the length of the image. *)
Definition get_class_id (e : dent) : option (list Z) :=
  let value := slice 80 96 (de_data e) in
  if auid_int value =? 0 then None else Some value.
(** cfb.py:603-609 *)
Definition set_class_id (e : dent) (value : option (list Z)) : dent :=
  let v := match value with None => zeros 16 | Some a => a end in
  mkde (ztake 80 (de_data e) ++ v ++ zdrop 96 (de_data e)) (de_name e).

(** cfb.py:611-619 *)
Definition get_flags (e : dent) : Z := unpack_from 4 (de_data e) 96.
(** cfb.py:616-619 *)
Definition set_flags (e : dent) (value : Z) : result dent :=
  do d <- pack_at 4 96 value (de_data e) ;; Ok (mkde d (de_name e)).

(** cfb.py:621-629 *)
Definition get_create_time (e : dent) : Z := unpack_from 8 (de_data e) 100.
(** cfb.py:626-629 *)
Definition set_create_time (e : dent) (value : Z) : result dent :=
  do d <- pack_at 8 100 value (de_data e) ;; Ok (mkde d (de_name e)).

(** cfb.py:631-639: the setter packs into bytes(self.data), an immutable copy: struct.pack_into
    raises TypeError for every value ("argument must be read-write bytes-like object"). *)
Definition get_modify_time (e : dent) : Z := unpack_from 8 (de_data e) 108.
(** cfb.py:636-639 *)
Definition set_modify_time (e : dent) (value : Z) : result dent := Err TypeError.

(** cfb.py:651-659 *)
Definition get_byte_size (e : dent) : Z := unpack_from 8 (de_data e) 120.
(** cfb.py:656-659 *)
Definition set_byte_size (e : dent) (value : Z) : result dent :=
  do d <- pack_at 8 120 value (de_data e) ;; Ok (mkde d (de_name e)).

(** cfb.py:472-489 DirEntry(storage, dir_id): no image given *)
Definition dent_blank : result dent :=
  let e0 := mkde (zeros 128) None in
  do e1 <- set_left_id e0 None ;;
  do e2 <- set_right_id e1 None ;;
  do e3 <- set_child_id e2 None ;;
  set_sector_id e3 None.

(** cfb.py:484-489 DirEntry(storage, dir_id, data) *)
Definition dent_load (data : list Z) : dent := mkde data None.

(** One assignment statement entry.field = value. *)
Inductive assignment : Type :=
| AName (v : list Z) | AType (v : string) | AColor (v : string) | ARed (v : bool)
| ALeft (v : option Z) | ARight (v : option Z) | AChild (v : option Z)
| AClass (v : option (list Z)) | AFlags (v : Z) | ACreate (v : Z) | AModify (v : Z)
| ASector (v : option Z) | ASize (v : Z).

(** cfb.py:501-659: the setter of that field *)
Definition assign (e : dent) (a : assignment) : result dent :=
  match a with
  | AName v => set_name e v | AType v => set_type e v | AColor v => set_color e v
  | ARed v => Ok (set_red e v) | ALeft v => set_left_id e v | ARight v => set_right_id e v
  | AChild v => set_child_id e v | AClass v => Ok (set_class_id e v) | AFlags v => set_flags e v
  | ACreate v => set_create_time e v | AModify v => set_modify_time e v
  | ASector v => set_sector_id e v | ASize v => set_byte_size e v
  end.

(** A sequence of assignments; one that raises leaves the object as it was, since every setter
    computes its packed value before it stores anything. *)
Definition assign_all (e : dent) (l : list assignment) : dent :=
  fold_left (fun e a => match assign e a with Ok e1 => e1 | Err _ => e end) l e.
