(** Python's struct / int / utf-16le codecs, as far as pyaaf2 uses them. *)
From Verif Require Import Base.
From Coq Require Import ZArith List Bool.
Import ListNotations.
Open Scope Z_scope.

(** struct.pack("<B|<H|<I|<Q", v) on an in-range value: little endian, n bytes. *)
Fixpoint le_bytes (n : nat) (v : Z) : list Z :=
  match n with
  | O => []
  | S n' => v mod 256 :: le_bytes n' (v / 256)
  end.

(** struct.unpack of an n byte unsigned little-endian value *)
Fixpoint le_val (l : list Z) : Z :=
  match l with
  | [] => 0
  | b :: t => b + 256 * le_val t
  end.

(** big-endian counterparts (">H", ">I", ">Q") *)
Definition be_bytes (n : nat) (v : Z) : list Z := rev (le_bytes n v).
(** The number that big-endian bytes give *)
Definition be_val (l : list Z) : Z := le_val (rev l).

(** struct.pack refuses values outside the range of the format. *)
Definition pack_u (n : nat) (v : Z) : result (list Z) :=
  if (0 <=? v) && (v <? 256 ^ Z.of_nat n) then Ok (le_bytes n v) else Err StructError.

(** struct.pack of a signed number of [n] bytes *)
Definition pack_s (n : nat) (v : Z) : result (list Z) :=
  let h := 256 ^ Z.of_nat n / 2 in
  if (- h <=? v) && (v <? h) then Ok (le_bytes n (v mod 256 ^ Z.of_nat n)) else Err StructError.

(** struct.unpack refuses a buffer of the wrong length. *)
Definition unpack_u (n : nat) (l : list Z) : result Z :=
  if zlen l =? Z.of_nat n then Ok (le_val l) else Err StructError.

(** Two's complement of [n] bytes *)
Definition to_signed (n : nat) (v : Z) : Z :=
  if v <? 256 ^ Z.of_nat n / 2 then v else v - 256 ^ Z.of_nat n.

(** struct.unpack of a signed number *)
Definition unpack_s (n : nat) (l : list Z) : result Z :=
  if zlen l =? Z.of_nat n then Ok (to_signed n (le_val l)) else Err StructError.

(** BytesIO.read(n) on the remaining bytes: (data, rest). *)
Definition rd (n : Z) (l : list Z) : list Z * list Z := (ztake n l, zdrop n l).

(** utils.read_u8/read_u16le/read_u32le/read_u64le (src/aaf2/utils.py:12-47): read then unpack. *)
Definition rd_u (n : nat) (l : list Z) : result (Z * list Z) :=
  let '(d, r) := rd (Z.of_nat n) l in
  do v <- unpack_u n d ;; Ok (v, r).

(** Python: data.encode('utf-16le') of a list of code points; lone surrogates are refused. *)
Definition utf16_units (c : Z) : list Z :=
  if c <? 65536 then [c]
  else [55296 + (c - 65536) / 1024; 56320 + (c - 65536) mod 1024].

(** A code point that UTF-16 cannot hold *)
Definition is_surrogate (c : Z) : bool := (55296 <=? c) && (c <? 57344).

(** str.encode("utf-16-le"), utils.py:87-88 *)
Definition encode_utf16 (s : list Z) : result (list Z) :=
  if forallb (fun c => (0 <=? c) && (c <? 1114112) && negb (is_surrogate c)) s
  then Ok (flat_map (fun c => flat_map (le_bytes 2) (utf16_units c)) s)
  else Err UnicodeError.

(** data.decode('utf-16le', 'backslashreplace'). Malformed input is rendered by Python as
    backslash escapes; the model renders each malformed unit as one code point [bad_unit],
    which no theorem depends on beyond its being a non-NUL placeholder. *)
Definition bad_unit : Z := 92.

(** Pairs of bytes as little-endian code units *)
Fixpoint units_of_bytes (l : list Z) : list Z :=
  match l with
  | a :: b :: t => (a + 256 * b) :: units_of_bytes t
  | _ => []
  end.

(** bytes.decode("utf-16le", "backslashreplace") on code units, utils.py:81-85 *)
Fixpoint decode_units (u : list Z) : list Z :=
  match u with
  | [] => []
  | a :: t =>
    if is_surrogate a then
      match t with
      | b :: t' =>
        if (a <? 56320) && (56320 <=? b) && (b <? 57344)
        then (65536 + (a - 55296) * 1024 + (b - 56320)) :: decode_units t'
        else bad_unit :: decode_units t
      | [] => [bad_unit]
      end
    else a :: decode_units t
  end.

(** .split(u'\x00')[0] *)
Fixpoint until_nul (s : list Z) : list Z :=
  match s with
  | [] => []
  | c :: t => if c =? 0 then [] else c :: until_nul t
  end.

(** utils.decode_utf16le (src/aaf2/utils.py:81-85) *)
Definition decode_utf16le (data : list Z) : list Z :=
  until_nul (decode_units (units_of_bytes data)).

(** utils.encode_utf16le (src/aaf2/utils.py:87-88) *)
Definition encode_utf16le (s : list Z) : result (list Z) :=
  do d <- encode_utf16 s ;; Ok (d ++ [0; 0]).

(** A string of Unicode scalar values *)
Definition scalar (c : Z) : Prop := (0 <= c < 55296) \/ (57344 <= c < 1114112).
(** A string that UTF-16 can hold *)
Definition text (s : list Z) : Prop := Forall scalar s.
(** A string without the null character *)
Definition nul_free (s : list Z) : Prop := ~ In 0 s.
