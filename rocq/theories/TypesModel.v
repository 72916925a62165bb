(** Property values: src/aaf2/types.py, src/aaf2/rational.py.
    A type definition is modelled by what its encode, decode and byte_size read: the properties
    stored in the definition and the definitions it refers to (looked up in the code by AUID or
    name, here held directly). Attribute lookups that fail in Python (AttributeError) are
    [GenericError]. *)
From Verif Require Import Base Codec Text.
From Coq Require Import ZArith List Bool String.
Import ListNotations.
Open Scope Z_scope.

(** Python values that properties hold. Names and strings are lists of code points. *)
Inductive val : Type :=
| VInt (z : Z) | VBool (b : bool) | VStr (s : list Z) | VAuid (a : list Z) | VMob (m : list Z)
| VRat (n d : Z) | VDate (y m d : Z) | VTime (h mi s us : Z) | VDateTime (y m d h mi s us : Z)
| VSeq (l : list val) | VSet (l : list val) | VDict (l : list (list Z * val)).

(** The records types.py:560-565 treats specially, by AUID. *)
Inductive rkind : Type := RPlain | RMob | RAuid | RTime | RDate | RStamp | RRat.

(** TypeDefInt 79, TypeDefEnum 222 ([isbool]: the Boolean AUID; names and values are the stored
    data), TypeDefFixedArray 317, TypeDefVarArray 389, TypeDefSet 470, TypeDefString 532,
    TypeDefRecord 567, TypeDefRename 744, TypeDefExtEnum 784, TypeDefCharacter 909 ([named]: its
    type_name is "Character"; the built-in definition is named "aafCharacter") *)
Inductive typ : Type :=
| TInt (size : Z) (signed : bool)
| TEnum (isbool : bool) (el : typ) (names values : list Z)
| TFixed (el : typ) (count : Z)
| TVar (el : typ)
| TSet (el : typ)
| TString
| TRec (k : rkind) (fields : list (list Z * typ))
| TRename (t : typ)
| TExtEnum (names values : list Z)
| TChar (named : bool).

(** dict assignment: an existing key keeps its place *)
Fixpoint dict_set {K V} (keqb : K -> K -> bool) (d : list (K * V)) (k : K) (v : V) : list (K * V) :=
  match d with
  | [] => [(k, v)]
  | (k', v') :: t => if keqb k' k then (k, v) :: t else (k', v') :: dict_set keqb t k v
  end.
(** dict.get, and d[k] where None is a KeyError *)
Fixpoint dict_get {K V} (keqb : K -> K -> bool) (d : list (K * V)) (k : K) : option V :=
  match d with [] => None | (k', v') :: t => if keqb k' k then Some v' else dict_get keqb t k end.
(** dict(zip(keys, values)) *)
Fixpoint dict_of {K V} (keqb : K -> K -> bool) (acc : list (K * V)) (l : list (K * V)) : list (K * V) :=
  match l with [] => acc | (k, v) :: t => dict_of keqb (dict_set keqb acc k v) t end.
(** dict(zip(keys, values)) *)
Definition dict_zip {K V} (keqb : K -> K -> bool) (ks : list K) (vs : list V) : list (K * V) :=
  dict_of keqb [] (combine ks vs).

(** ** Integers *)

(** types.py:108-124 pack_format: the sizes struct knows *)
Definition int_fmt (size : Z) : result nat :=
  if (size =? 1) || (size =? 2) || (size =? 4) || (size =? 8) then Ok (Z.to_nat size) else Err PropertyError.
(** types.py:108-132: struct.pack and struct.unpack of one number; capital letters are unsigned *)
Definition pack_int (sg : bool) (n : nat) (v : Z) : result (list Z) := if sg then pack_s n v else pack_u n v.
(** struct.unpack of one number *)
Definition unpack_int (sg : bool) (n : nat) (d : list Z) : result Z := if sg then unpack_s n d else unpack_u n d.

(** types.py:126-132. A bool is an int: struct packs True as 1. Simplification: the other classes
    with __index__ (none of them a value of the model) are not modelled. *)
Definition int_decode (size : Z) (sg : bool) (data : list Z) : result val :=
  guard (zlen data =? size) else AssertionError ;;
  do n <- int_fmt size ;; do v <- unpack_int sg n data ;; Ok (VInt v).
(** types.py:131-132 *)
Definition int_encode (size : Z) (sg : bool) (v : val) : result (list Z) :=
  do n <- int_fmt size ;; match v with VInt z => pack_int sg n z | VBool b => pack_int sg n (if b then 1 else 0) | _ => Err StructError end.

(** struct.pack("<%dH", *values) and struct.unpack: all elements of one format *)
Fixpoint pack_all (sg : bool) (n : nat) (vs : list val) : result (list Z) :=
  match vs with
  | [] => Ok []
  | VInt z :: t => do d <- pack_int sg n z ;; do r <- pack_all sg n t ;; Ok (d ++ r)
  | VBool b :: t => do d <- pack_int sg n (if b then 1 else 0) ;; do r <- pack_all sg n t ;; Ok (d ++ r)
  | _ :: _ => Err StructError
  end.
(** struct.unpack, element by element *)
Fixpoint unpack_go (sg : bool) (n : nat) (count : nat) (data : list Z) : result (list val) :=
  match count with
  | O => Ok []
  | S c => do v <- unpack_int sg n (ztake (Z.of_nat n) data) ;; do r <- unpack_go sg n c (zdrop (Z.of_nat n) data) ;; Ok (VInt v :: r)
  end.
(** struct.unpack("<%dH", data) of exactly that many bytes *)
Definition unpack_all (sg : bool) (n : nat) (count : Z) (data : list Z) : result (list val) :=
  guard (zlen data =? Z.of_nat n * count) else StructError ;; unpack_go sg n (Z.to_nat count) data.
(** types.py:349-353, 431-435 *)
Definition ints_decode (size : Z) (sg : bool) (data : list Z) : result (list val) :=
  guard (negb (size =? 0)) else ZeroDivision ;;
  do n <- int_fmt size ;; unpack_all sg n (zlen data / size) data.

(** ** Strings *)

(** bytes.decode("utf-16le"), strict *)
Fixpoint decode_units_strict (u : list Z) : result (list Z) :=
  match u with
  | [] => Ok []
  | a :: t =>
    if is_surrogate a then
      match t with
      | b :: t' =>
        if (a <? 56320) && (56320 <=? b) && (b <? 57344)
        then do r <- decode_units_strict t' ;; Ok ((65536 + (a - 55296) * 1024 + (b - 56320)) :: r)
        else Err UnicodeError
      | [] => Err UnicodeError
      end
    else do r <- decode_units_strict t ;; Ok (a :: r)
  end.
(** bytes.decode('utf-16-le') *)
Definition decode_strict (d : list Z) : result (list Z) := decode_units_strict (units_of_bytes d).

(** types.py:306-312 iter_utf16_array; [acc] is data[start:i] *)
Fixpoint iter_utf16 (acc data : list Z) : result (list (list Z)) :=
  match data with
  | [] => Ok []
  | [a] => if a =? 0 then Err IndexError else Ok []
  | a :: b :: t =>
    if (a =? 0) && (b =? 0)
    then do s <- decode_strict acc ;; do r <- iter_utf16 [] t ;; Ok (s :: r)
    else iter_utf16 (acc ++ [a; b]) t
  end.
(** types.py:306-312 *)
Definition iter_utf16_array (data : list Z) : result (list (list Z)) := iter_utf16 [] data.

(** utils.py:99-103 encode_utf16_array *)
Fixpoint encode_utf16_array (l : list (list Z)) : result (list Z) :=
  match l with
  | [] => Ok []
  | s :: t => do d <- encode_utf16le s ;; do r <- encode_utf16_array t ;; Ok (d ++ r)
  end.

(** ** Enumerations *)

(** the integers unpacked by struct in types.py:254 (strips the constructor) *)
Fixpoint unvals (l : list val) : list Z := match l with [] => [] | VInt z :: t => z :: unvals t | _ :: t => unvals t end.
(** types.py:249-256 elements: names, then struct.unpack("<%dq") of as many values *)
Definition enum_elements (names values : list Z) : result (list (Z * list Z)) :=
  do ns <- iter_utf16_array names ;;
  do vs <- unpack_all true 8 (zlen ns) values ;;
  Ok (dict_zip Z.eqb (unvals vs) ns).

(** properties.py:1355-1361 add_s64le_array_property *)
Fixpoint s64_array (l : list Z) : result (list Z) :=
  match l with [] => Ok [] | v :: t => do d <- pack_s 8 v ;; do r <- s64_array t ;; Ok (d ++ r) end.
(** types.py:227-239 TypeDefEnum.__new__: the stored names and values of an elements dict *)
Definition enum_new (el : list (Z * list Z)) : result (list Z * list Z) :=
  do ns <- encode_utf16_array (map snd el) ;; do vs <- s64_array (map fst el) ;; Ok (ns, vs).

(** sorted() of items with distinct integer keys *)
Fixpoint insert_item (x : Z * list Z) (l : list (Z * list Z)) : list (Z * list Z) :=
  match l with [] => [x] | y :: t => if fst x <=? fst y then x :: l else y :: insert_item x t end.
(** sorted() *)
Fixpoint sort_items (l : list (Z * list Z)) : list (Z * list Z) :=
  match l with [] => [] | x :: t => insert_item x (sort_items t) end.

(** types.py:263-282 register_element *)
Definition register_element (names values : list Z) (name : list Z) (value : Z) : result (list Z * list Z) :=
  do el <- enum_elements names values ;;
  if existsb (fun x => (fst x =? value) || zlist_eqb (snd x) name) el then Ok (names, values)
  else
    let el' := sort_items el ++ [(value, name)] in
    do ns <- encode_utf16_array (map snd el') ;; do vs <- pack_all true 8 (map (fun x => VInt (fst x)) el') ;; Ok (ns, vs).

(** types.py:301-306: the first element whose name or whose value is the given one; True == 1.
    Simplification: a rational or float equal to a value is not taken for it. *)
Definition enum_find (el : list (Z * list Z)) (v : val) : option Z :=
  option_map fst (find (fun x => match v with VStr s => zlist_eqb (snd x) s | VInt z => fst x =? z | VBool b => fst x =? (if b then 1 else 0) | _ => false end) el).

(** types.py:768-779 iter_auid_array *)
Fixpoint iter_auid (fuel : nat) (data : list Z) : result (list (list Z)) :=
  match fuel with
  | O => Ok []
  | S f =>
    match data with
    | [] => Ok []
    | _ => guard (16 <=? zlen data) else GenericError ;;
           do r <- iter_auid f (zdrop 16 data) ;; Ok (ztake 16 data :: r)
    end
  end.
(** types.py:768-779: until the stream ends *)
Definition iter_auid_array (data : list Z) : result (list (list Z)) := iter_auid (List.length data) data.
(** utils.py:105-111 encode_auid_array, of AUIDs *)
Definition encode_auid_array (l : list (list Z)) : list Z := List.concat l.

(** types.py:822-826 *)
Definition ext_elements (names values : list Z) : result (list (list Z * list Z)) :=
  do ns <- iter_utf16_array names ;; do vs <- iter_auid_array values ;; Ok (dict_zip zlist_eqb vs ns).
(** types.py:788-800 *)
Definition ext_new (el : list (list Z * list Z)) : result (list Z * list Z) :=
  do ns <- encode_utf16_array (map snd el) ;; Ok (ns, encode_auid_array (map fst el)).
(** types.py:805-820 *)
Definition ext_register (names values : list Z) (name auid : list Z) : result (list Z * list Z) :=
  do el <- ext_elements names values ;;
  if existsb (fun x => zlist_eqb (fst x) auid || zlist_eqb (snd x) name) el then Ok (names, values)
  else ext_new (el ++ [(auid, name)]).

(** ** Rationals: rational.py:24-111 AAFRational.__new__ *)

(** two arguments, each an integer or a rational (num, den) *)
Definition rat_new (n d : Z * Z) : result (Z * Z) :=
  let num := fst n * snd d in
  let den := fst d * snd n in
  if den =? 0 then (if num =? 0 then Ok (0, 1) else Err ZeroDivision) else Ok (num, den).

(** one argument. Simplification: only integers and rationals; floats, decimals and strings are
    not modelled. *)
Definition rat_of (v : val) : result (Z * Z) :=
  match v with VInt n => Ok (n, 1) | VRat n d => Ok (n, d) | VBool b => Ok (if b then 1 else 0, 1) | _ => Err TypeError end.
(** rational.py:83-106: the arguments of AAFRational(numerator, denominator) *)
Definition rat_arg (v : val) : result (Z * Z) := rat_of v.

(** ** Dates: the standard library's datetime.date and datetime.time accept *)
Definition leap (y : Z) : bool := ((y mod 4 =? 0) && negb (y mod 100 =? 0)) || (y mod 400 =? 0).
(** datetime: the days of a month *)
Definition month_days (y m : Z) : Z :=
  if m =? 2 then (if leap y then 29 else 28) else if (m =? 4) || (m =? 6) || (m =? 9) || (m =? 11) then 30 else 31.
(** datetime.date accepts *)
Definition date_ok (y m d : Z) : bool :=
  (1 <=? y) && (y <=? 9999) && (1 <=? m) && (m <=? 12) && (1 <=? d) && (d <=? month_days y m).
(** datetime.time accepts *)
Definition time_ok (h mi s us : Z) : bool :=
  (0 <=? h) && (h <? 24) && (0 <=? mi) && (mi <? 60) && (0 <=? s) && (s <? 60) && (0 <=? us) && (us <? 1000000).

(** result[name] of a decoded record, types.py:653-692 *)
Definition dget (d : list (list Z * val)) (k : list Z) : option val := dict_get zlist_eqb d k.

(** types.py:653-692: the conversions of a decoded record; a failing datetime constructor leaves the dict *)
Definition record_value (k : rkind) (d : list (list Z * val)) : result val :=
  match k with
  | RTime =>
    match dget d (codes "hour"), dget d (codes "minute"), dget d (codes "second"), dget d (codes "fraction") with
    | Some (VInt h), Some (VInt mi), Some (VInt s), Some (VInt us) => if time_ok h mi s us then Ok (VTime h mi s us) else Ok (VDict d)
    | _, _, _, _ => Ok (VDict d)
    end
  | RDate =>
    match dget d (codes "year"), dget d (codes "month"), dget d (codes "day") with
    | Some (VInt y), Some (VInt m), Some (VInt dd) => if (zlen d =? 3) && date_ok y m dd then Ok (VDate y m dd) else Ok (VDict d)
    | _, _, _ => Ok (VDict d)
    end
  | RStamp =>
    match dget d (codes "date"), dget d (codes "time") with
    | Some (VDate y m dd), Some (VTime h mi s us) => Ok (VDateTime y m dd h mi s us)
    | _, _ => Ok (VDict d)
    end
  | RRat =>
    match dget d (codes "Numerator"), dget d (codes "Denominator") with
    | Some n, Some dd => do n <- rat_arg n ;; do dd <- rat_arg dd ;; do r <- rat_new n dd ;; Ok (VRat (fst r) (snd r))
    | _, _ => Err KeyError
    end
  | _ => Ok (VDict d)
  end.

(** types.py:706-733: what a special value becomes before its fields are encoded *)
Definition record_source (k : rkind) (v : val) : result val :=
  match k, v with
  | RDate, VDate y m d | RDate, VDateTime y m d _ _ _ _ => Ok (VDict [(codes "year", VInt y); (codes "month", VInt m); (codes "day", VInt d)])
  | RTime, VTime h mi s us => Ok (VDict [(codes "hour", VInt h); (codes "minute", VInt mi); (codes "second", VInt s); (codes "fraction", VInt 0)])
  | RRat, _ => do r <- rat_of v ;; Ok (VDict [(codes "Numerator", VInt (fst r)); (codes "Denominator", VInt (snd r))])
  | _, _ => Ok v
  end.

(** byte_size: types.py:105-107, 245-247, 342-344, 616-627; the other classes have none *)
Fixpoint byte_size (t : typ) : result Z :=
  match t with
  | TInt size _ => Ok size
  | TEnum _ el _ _ => byte_size el
  | TFixed el count => do n <- byte_size el ;; Ok (n * count)
  | TRec _ fields =>
    do n <- (fix go (fs : list (list Z * typ)) : result Z :=
      match fs with [] => Ok 0 | (_, ft) :: r => do n <- byte_size ft ;; do m <- go r ;; Ok (n + m) end) fields ;;
    guard (negb (n =? 0)) else AssertionError ;; Ok n
  | _ => Err GenericError
  end.

(** the loops over data[start:start+byte_size] of types.py:355-361, 440-445, 510-515 *)
Fixpoint decode_chunks (dec : list Z -> result val) (n : nat) (bs start : Z) (data : list Z) : result (list val) :=
  match n with
  | O => Ok []
  | S k => do v <- dec (slice start (start + bs) data) ;; do r <- decode_chunks dec k bs (start + bs) data ;; Ok (v :: r)
  end.
(** the loops of types.py:461-465 and 523-527 *)
Fixpoint encode_items (enc : val -> result (list Z)) (l : list val) : result (list Z) :=
  match l with [] => Ok [] | v :: t => do d <- enc v ;; do r <- encode_items enc t ;; Ok (d ++ r) end.
(** types.py:371-375: encoding stops with an error at the first item too many *)
Fixpoint encode_fixed (enc : val -> result (list Z)) (left : Z) (l : list val) : result (list Z) :=
  match l with
  | [] => Ok []
  | v :: t => guard (0 <? left) else PropertyError ;; do d <- enc v ;; do r <- encode_fixed enc (left - 1) t ;; Ok (d ++ r)
  end.

(** bool(data) *)
Definition truthy (v : val) : bool :=
  match v with
  | VInt z => negb (z =? 0) | VBool b => b | VStr s => negb (zlen s =? 0) | VRat n _ => negb (n =? 0)
  | VSeq l | VSet l => negb (zlen l =? 0) | VDict l => negb (zlen l =? 0) | _ => true
  end.

(** str.lower and the order in which a set is iterated are left open: any functions will do. *)
Section Codecs.
Variable lower : list Z -> list Z.
Variable set_iter : list val -> list val.

(** types.py:284-292 TypeDefEnum.decode, 346-363 FixedArray, 422-446 VarArray, 504-517 Set,
    550 String, 629-692 Record, 762 Rename, 828-836 ExtEnum. Simplification: decode(None) of an
    ExtEnum is not modelled. *)
Fixpoint decode (t : typ) : list Z -> result val := fun data =>
  match t with
  | TInt size sg => int_decode size sg data
  | TEnum isbool el names values =>
    if isbool then Ok (VBool (zlist_eqb data [1]))
    else
      do i <- decode el data ;; do es <- enum_elements names values ;;
      match i with
      | VInt z => match dict_get Z.eqb es z with Some s => Ok (VStr s) | None => Err KeyError end
      | _ => Err KeyError
      end
  | TFixed (TInt size sg) _ => do l <- ints_decode size sg data ;; Ok (VSeq l)
  | TFixed el count => do bs <- byte_size el ;; do l <- decode_chunks (decode el) (Z.to_nat count) bs 0 data ;; Ok (VSeq l)
  | TVar (TChar _) => do l <- iter_utf16_array data ;; Ok (VSeq (map VStr l))
  | TVar (TInt size sg) => do l <- ints_decode size sg data ;; Ok (VSeq l)
  | TVar el =>
    do bs <- byte_size el ;; guard (negb (bs =? 0)) else ZeroDivision ;;
    do l <- decode_chunks (decode el) (Z.to_nat (zlen data / bs)) bs 0 data ;; Ok (VSeq l)
  | TSet el =>
    do bs <- byte_size el ;; guard (negb (bs =? 0)) else ZeroDivision ;;
    do l <- decode_chunks (decode el) (Z.to_nat (zlen data / bs)) bs 0 data ;; Ok (VSet l)
  | TString => Ok (VStr (decode_utf16le data))
  | TRec RMob _ => Ok (VMob (if zlen data =? 0 then zeros 32 else data))
  | TRec RAuid _ => guard (negb (zlen data =? 0)) else TypeError ;; Ok (VAuid data)
  | TRec k fields =>
    do d <- (fix go (fs : list (list Z * typ)) (start : Z) (acc : list (list Z * val)) : result (list (list Z * val)) :=
      match fs with
      | [] => Ok acc
      | (key, ft) :: r =>
        do bs <- byte_size ft ;; do v <- decode ft (slice start (start + bs) data) ;;
        go r (start + bs) (dict_set zlist_eqb acc key v)
      end) fields 0 [] ;;
    record_value k d
  | TRename t => decode t data
  | TExtEnum names values =>
    guard (negb (zlen data =? 0)) else TypeError ;;
    do es <- ext_elements names values ;;
    match dict_get zlist_eqb es data with Some s => Ok (VStr s) | None => Ok (VAuid data) end
  | TChar _ => Err GenericError
  end.

(** types.py:294-304 TypeDefEnum.encode, 365-386 FixedArray, 448-466 VarArray, 519-528 Set,
    553 String, 694-739 Record, 765 Rename, 838-852 ExtEnum *)
Fixpoint encode (t : typ) : val -> result (list Z) := fun v =>
  match t with
  | TInt size sg => int_encode size sg v
  | TEnum isbool el names values =>
    if isbool then Ok (if truthy v then [1] else [0])
    else
      do es <- enum_elements names values ;;
      match enum_find es v with Some z => encode el (VInt z) | None => Err PropertyError end
  | TFixed el count =>
    match v with
    | VSeq l =>
      do bs <- byte_size el ;; do d <- encode_fixed (encode el) count l ;;
      match l with
      | [] => Err NameError
      | _ => let i := zlen l - 1 in if i <? count then Ok (d ++ zeros ((count - i) * bs)) else Ok d
      end
    | _ => Err TypeError
    end
  | TVar (TChar true) =>
    match v with
    | VSeq l => (fix go (l : list val) : result (list Z) :=
        match l with [] => Ok [] | VStr s :: r => do d <- encode_utf16le s ;; do e <- go r ;; Ok (d ++ e) | _ :: _ => Err GenericError end) l
    | _ => Err TypeError
    end
  | TVar (TInt size sg) => match v with VSeq l => do n <- int_fmt size ;; pack_all sg n l | _ => Err TypeError end
  | TVar el => match v with VSeq l => encode_items (encode el) l | _ => Err TypeError end
  | TSet el => match v with VSet l | VSeq l => encode_items (encode el) (set_iter l) | _ => Err TypeError end
  | TString => match v with VStr s => encode_utf16le s | _ => Err GenericError end
  | TRec k fields =>
    match k, v with
    | RMob, VMob b | RMob, VAuid b | RAuid, VMob b | RAuid, VAuid b => Ok b
    | RMob, _ | RAuid, _ => Err GenericError
    | RStamp, VDateTime y m d h mi s us =>
      match fields with
      | (_, t0) :: (_, t1) :: _ =>
        do a <- encode t0 (VDate y m d) ;; do b <- encode t1 (VTime h mi s us) ;; Ok (a ++ b)
      | _ => Err IndexError
      end
    | _, _ =>
      do src <- record_source k v ;;
      match src with
      | VDict dd => (fix go (fs : list (list Z * typ)) : result (list Z) :=
          match fs with
          | [] => Ok []
          | (key, ft) :: r =>
            match dget dd key with
            | Some fv => do d <- encode ft fv ;; do e <- go r ;; Ok (d ++ e)
            | None => Err KeyError
            end
          end) fields
      | _ => Err TypeError
      end
    end
  | TRename t => encode t v
  | TExtEnum names values =>
    do es <- ext_elements names values ;;
    match find (fun x => match v with VAuid a => zlist_eqb (fst x) a | VStr s => zlist_eqb (lower (snd x)) (lower s) | _ => false end) es with
    | Some x => Ok (fst x)
    | None => Err ValueError
    end
  | TChar _ => Err GenericError
  end.

(** ** Indirect values: types.py:859-896. [lookup] is metadict.lookup_typedef. *)
Variable lookup : list Z -> option typ.
(** types.py:859-868 decode *)
Definition indirect_decode (data : list Z) : result val :=
  guard (zlist_eqb (slice 0 1 data) [76]) else AssertionError ;;
  match lookup (slice 1 17 data) with
  | Some t => decode t (zdrop 17 data)
  | None => Err GenericError
  end.
(** the type given, or chosen from the value: types.py:871-889 *)
Definition indirect_auid (given : option (list Z)) (v : val) : result (list Z) :=
  match given with
  | Some a => match lookup a with Some _ => Ok a | None => Err PropertyError end
  | None =>
    match v with
    | VStr _ => Ok [0;2;16;1; 0;0; 0;0; 6;14;43;52;1;4;1;1]
    | VRat _ _ => Ok [0;1;1;3; 0;0; 0;0; 6;14;43;52;1;4;1;1]
    | VInt _ | VBool _ => Ok [0;7;1;1; 0;0; 0;0; 6;14;43;52;1;4;1;1]
    | _ => Err NotImplemented
    end
  end.
(** types.py:870-896 encode *)
Definition indirect_encode (given : option (list Z)) (v : val) : result (list Z) :=
  do a <- indirect_auid given v ;;
  match lookup a with
  | Some t => do d <- encode t v ;; Ok ([76] ++ a ++ d)
  | None => Err GenericError
  end.
End Codecs.
