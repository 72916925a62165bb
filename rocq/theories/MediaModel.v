(** MXF, DNxHD and audio header scanning (mxf.py, video.py, ama.py).
    A file open for reading is its bytes [d] together with a position; read(n) returns at most n
    bytes and moves the position by the number of bytes returned; a seek may go past the end.
    A generator is modelled by the list of what it yields and the way it ends. *)
From Verif Require Import Base Codec IdsModel.
From Coq Require Import ZArith List Bool.
Import ListNotations.
Open Scope Z_scope.

(** f.read(n) at position [pos] (io.BufferedReader / BytesIO, n >= 0) *)
Definition fread (d : list Z) (pos n : Z) : list Z := ztake n (zdrop pos d).

(** utils.py 12-14, 23-25, 34-36, 49-51: struct.unpack of exactly n big endian bytes *)
Definition read_be (n : nat) (d : list Z) (pos : Z) : result (Z * Z) :=
  let b := fread d pos (Z.of_nat n) in
  if zlen b =? Z.of_nat n then Ok (be_val b, pos + Z.of_nat n) else Err StructError.

(** f.seek(pos) on a real file: the offset must fit off_t, otherwise OverflowError *)
Definition off_max : Z := 2 ^ 63.

(** mxf.py 824-831 ber_length; returns the length and the position after it *)
Definition ber_length (d : list Z) (pos : Z) : result (Z * Z) :=
  do (length, p) <- read_be 1 d pos ;;
  if 127 <? length then
    let data := fread d p (length - 128) in
    guard (zlen data =? length - 128) else AssertionError ;;
    Ok (int_from_bytes_be data, p + (length - 128))
  else Ok (length, p).

(** mxf.py 834-846 iter_kl. The consumer may move the file between two yields; the generator seeks to
    its own [pos] first, so only what it computed matters. Yields (key, length, f.tell()). *)
Fixpoint iter_kl (fuel : nat) (d : list Z) (pos : Z) : list (list Z * Z * Z) * result unit :=
  match fuel with
  | O => ([], Err OutOfFuel)
  | S n =>
    if off_max <=? pos then ([], Err Overflow) else
    let data := fread d pos 16 in                      (* 32-35 read_auid_be *)
    match data with
    | [] => ([], Ok tt)
    | _ =>
      match ber_length d (pos + zlen data) with
      | Err e => ([], Err e)
      | Ok (length, p) =>
        let '(ys, r) := iter_kl n d (p + length) in ((auid_of_be data, length, p) :: ys, r)
      end
    end
  end.

(** mxf.py 848-855 iter_tags from position [pos]; items of size 0 are not yielded *)
Fixpoint iter_tags (fuel : nat) (d : list Z) (pos length : Z) : list (Z * list Z) * result Z :=
  match fuel with
  | O => ([], Err OutOfFuel)
  | S n =>
    if 0 <? length then
      match read_be 2 d pos with
      | Err e => ([], Err e)
      | Ok (tag, p1) =>
        match read_be 2 d p1 with
        | Err e => ([], Err e)
        | Ok (size, p2) =>
          let v := fread d p2 size in
          let '(ys, r) := iter_tags n d (p2 + zlen v) (length - (4 + size)) in
          (if size =? 0 then (ys, r) else ((tag, v) :: ys, r))
        end
      end
    else ([], Ok pos)
  end.

(** mxf.py 950-966 read_primer; None when the batch header is not understood. The dict is an
    association list with the latest binding first. [range(item_num)] reads up to 65536 items. *)
Fixpoint primer_items (n : nat) (d : list Z) (pos : Z) (tags : list (Z * list Z)) : result (list (Z * list Z)) :=
  match n with
  | O => Ok tags
  | S n' =>
    do (tag, p) <- read_be 2 d pos ;;
    let data := fread d p 16 in
    primer_items n' d (p + zlen data) ((tag, auid_of_be data) :: tags)
  end.
(** [read_auid_be] returns None on no data; the model stores the AUID of no bytes, []. *)
Definition read_primer (d : list Z) (pos : Z) : result (option (list (Z * list Z))) :=
  do (item_num, p) <- read_be 4 d pos ;;
  do (item_len, p2) <- read_be 4 d p ;;
  if negb (item_len =? 18) then Ok None else
  if 65536 <? item_num then Ok None else
  do t <- primer_items (Z.to_nat item_num) d p2 [] ;; Ok (Some t).

(** tags.get(tag) *)
Fixpoint tag_get (t : list (Z * list Z)) (k : Z) : option (list Z) :=
  match t with [] => None | (k', v) :: r => if k =? k' then Some v else tag_get r k end.

(** mxf.py 925-929 round_to_kag *)
Definition round_to_kag (pos kag : Z) : result Z :=
  if kag =? 0 then Err ZeroDivision else
  let ret := (pos / kag) * kag in
  if ret =? pos then Ok pos else Ok (pos + kag).

(** mxf.py 931-947 read_header: the fields used and the partition size computed from them. *)
Definition read_header (d : list Z) (pos length : Z) : result (list Z * Z) :=
  do (_, p) <- read_be 2 d pos ;;
  do (_, p) <- read_be 2 d p ;;
  do (kag, p) <- read_be 4 d p ;;
  do (_, p) <- read_be 8 d p ;;
  do (_, p) <- read_be 8 d p ;;
  do (_, p) <- read_be 8 d p ;;
  do (hbc, p) <- read_be 8 d p ;;
  do (ibc, p) <- read_be 8 d p ;;
  do (_, p) <- read_be 4 d p ;;
  do (_, p) <- read_be 8 d p ;;
  do (_, p) <- read_be 4 d p ;;
  let op := auid_of_be (fread d p 16) in
  do a <- round_to_kag length kag ;;
  do b <- round_to_kag hbc kag ;;
  do c <- round_to_kag ibc kag ;;
  Ok (op, a + b + c).

(** video.py 98-114 *)
Definition dnxhd_frame_sizes : list (Z * Z) :=
  [(1235, 917504); (1237, 606208); (1238, 917504); (1241, 917504); (1242, 606208); (1243, 917504);
   (1244, 606208); (1250, 458752); (1251, 458752); (1252, 303104); (1253, 188416); (1256, 1835008);
   (1258, 212992); (1259, 417792); (1260, 835584)].
(** video.py 116-122 *)
Definition dnxhr_ratio : list (Z * (Z * Z)) :=
  [(1270, (57344, 255)); (1271, (28672, 255)); (1272, (28672, 255)); (1273, (18944, 255)); (1274, (5888, 255))].
(** d.get(k) on those tables (video.py:96-122) *)
Fixpoint lookup {A} (t : list (Z * A)) (k : Z) : option A :=
  match t with [] => None | (k', v) :: r => if k =? k' then Some v else lookup r k end.

(** video.py 169-179 dnx_frame_size *)
Definition dnx_frame_size (cid width height : Z) : result Z :=
  match lookup dnxhd_frame_sizes cid with
  | Some s => Ok s                                    (* no size in the table is 0 *)
  | None =>
    match lookup dnxhr_ratio cid with
    | None => Err KeyError
    | Some (r0, r1) =>
      let size := ((height + 15) / 16) * ((width + 15) / 16) * r0 / r1 in
      let size := (size + 2048) / 4096 * 4096 in
      Ok (Z.max size 8192)
    end
  end.

(** video.py 182-196 valid_dnx_prefix *)
Definition valid_dnx_prefix (prefix : Z) : bool :=
  if prefix =? 41943296 (* 0x000002800100 *) then true else
  let data_offset := Z.shiftr prefix 16 in
  (Z.land prefix 281470681808895 (* 0xFFFF0000FFFF *) =? 768) && (640 <=? data_offset) &&
  (data_offset <=? 8560) && (Z.land data_offset 3 =? 0).

(** video.py 198-227 read_dnx_frame_header: (cid, width, height, bitdepth, interlaced) *)
Definition read_dnx_frame_header (h : list Z) : result (Z * Z * Z * Z * bool) :=
  guard (640 <=? zlen h) else ValueError ;;
  let prefix := Z.land (int_from_bytes_be (slice 0 6 h)) 281474976710400 (* 0xffffffffff00 *) in
  guard (valid_dnx_prefix prefix) else ValueError ;;
  let height := to_signed 2 (be_val (slice 24 26 h)) in
  let width := to_signed 2 (be_val (slice 26 28 h)) in
  let cid := to_signed 4 (be_val (slice 40 44 h)) in
  let interlaced := negb (Z.land (be_val (slice 5 6 h)) 2 =? 0) in
  let bd := Z.shiftr (be_val (slice 33 34 h)) 5 in
  do bitdepth <- (if bd =? 1 then Ok 8 else if bd =? 2 then Ok 10 else if bd =? 3 then Ok 12 else Err ValueError) ;;
  guard (Z.land (Z.shiftr (be_val (slice 44 45 h)) 6) 1 =? 0) else NotImplemented ;;
  Ok (cid, width, height, bitdepth, interlaced).

(** video.py 229-240 iter_dnx_stream. frame_size - 640 is never negative (C55_frame_size_partial), so
    f.read never means "read everything". *)
Fixpoint iter_dnx (fuel : nat) (d : list Z) (pos : Z) : list (list Z) * result unit :=
  match fuel with
  | O => ([], Err OutOfFuel)
  | S n =>
    let h := fread d pos 640 in
    if negb (zlen h =? 640) then ([], Ok tt) else
    match read_dnx_frame_header h with
    | Err e => ([], Err e)
    | Ok (cid, width, height, _, _) =>
      match dnx_frame_size cid width height with
      | Err e => ([], Err e)
      | Ok fs =>
        let body := fread d (pos + 640) (fs - 640) in
        let '(ys, r) := iter_dnx n d (pos + 640 + zlen body) in ((h ++ body) :: ys, r)
      end
    end
  end.

(** ama.py 40-64 get_wave_fmt and 66-94 get_aifc_fmt differ in the container id, the accepted form
    types, the byte order of sizes and the test for the wanted chunk. *)
Definition c_RIFF := [82; 73; 70; 70].   Definition c_WAVE := [87; 65; 86; 69].
(** ama.py:66-94 *)
Definition c_FORM := [70; 79; 82; 77].   Definition c_AIFF := [65; 73; 70; 70].
(** ama.py:66-94 *)
Definition c_AIFC := [65; 73; 70; 67].   Definition c_COMM := [67; 79; 77; 77].
(** ama.py:40-64 *)
Definition c_fmt := [102; 109; 116].

(** ama.py:46-64 and 72-94: the loop over the chunks *)
Fixpoint chunk_loop (fuel : nat) (wanted : list Z -> bool) (val : list Z -> Z)
    (d head : list Z) (pos : Z) : result (option (list Z)) :=
  match fuel with
  | O => Err OutOfFuel
  | S n =>
    let chunkid := fread d pos 4 in
    let p := pos + zlen chunkid in
    let sizebuf := fread d p 4 in
    let p := p + zlen sizebuf in
    if (zlen sizebuf <? 4) || (zlen chunkid <? 4) then Ok None else
    let size := val sizebuf in
    if negb (wanted chunkid) then
      let seek := if size mod 2 =? 1 then size + 1 else size in
      chunk_loop n wanted val d head (p + seek)
    else Ok (Some (head ++ chunkid ++ sizebuf ++ fread d p size))
  end.

(** ama.py 40-64 *)
Definition get_wave_fmt (fuel : nat) (d : list Z) : result (option (list Z)) :=
  let a := fread d 0 4 in
  if negb (zlist_eqb a c_RIFF) then Ok None else
  let data_size := fread d 4 4 in
  let p := 4 + zlen data_size in
  let w := fread d p 4 in
  if negb (zlist_eqb w c_WAVE) then Ok None else
  chunk_loop fuel (fun id => zlist_eqb (slice 0 3 id) c_fmt) le_val d (c_RIFF ++ data_size ++ c_WAVE) (p + 4).

(** ama.py 66-94 *)
Definition get_aifc_fmt (fuel : nat) (d : list Z) : result (option (list Z)) :=
  let a := fread d 0 4 in
  if negb (zlist_eqb a c_FORM) then Ok None else
  let data_size := fread d 4 4 in
  let p := 4 + zlen data_size in
  let w := fread d p 4 in
  if negb (zlist_eqb w c_AIFF || zlist_eqb w c_AIFC) then Ok None else
  chunk_loop fuel (fun id => zlist_eqb id c_COMM) be_val d (c_FORM ++ data_size ++ w) (p + 4).
