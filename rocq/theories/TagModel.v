(** The comments of a mob and other lists of tagged values, src/aaf2/misc.py:22-95. *)
From Verif Require Import Base Codec TypesModel.
From Coq Require Import ZArith List Bool.
Import ListNotations.
Open Scope Z_scope.

(** misc.py:58-95 TaggedValue: the data of its properties Name, a String, and Value, an Indirect; None is a property that
    is not there *)
Record tag := Tag { t_name : option (list Z); t_value : option (list Z) }.

Section Tags.
(** str.lower, the order of a set, and metadict.lookup_typedef *)
Variable lower : list Z -> list Z.
Variable set_iter : list val -> list val.
Variable lookup : list Z -> option typ.

(** item['Name'].value, properties.py:143-148 *)
Definition name_of (t : tag) : option (list Z) := match t_name t with Some d => Some (decode_utf16le d) | None => None end.
(** item['Value'].value, properties.py:143-148 *)
Definition value_of (t : tag) : result (option val) := match t_value t with Some d => do v <- indirect_decode lookup d ;; Ok (Some v) | None => Ok None end.
(** item['Name'].value == key; a key is a string or None *)
Definition has_name (key : option (list Z)) (t : tag) : bool :=
  match name_of t, key with
  | Some n, Some k => zlist_eqb n k
  | None, None => true
  | _, _ => false
  end.
(** misc.py:26-30 get: the first item of the name *)
Definition get (tags : list tag) (key : option (list Z)) : option tag := find (has_name key) tags.
(** misc.py:32-33 __contains__ *)
Definition contains (tags : list tag) (key : option (list Z)) : bool := match get tags key with Some _ => true | None => false end.
(** misc.py:35-40 __getitem__; an object is always true as a condition *)
Definition getitem (tags : list tag) (key : option (list Z)) : result (option val) :=
  match get tags key with Some t => value_of t | None => Err IndexError end.
(** misc.py:42-44 items *)
Fixpoint items (tags : list tag) : result (list (option (list Z) * option val)) :=
  match tags with [] => Ok [] | t :: r => do v <- value_of t ;; do l <- items r ;; Ok ((name_of t, v) :: l) end.

(** tag['Value'].value = value, properties.py:150-166: the tag afterwards, and whether it raised *)
Definition set_value (t : tag) (v : option val) : tag * result unit :=
  match v with
  | None => (Tag (t_name t) None, Ok tt)
  | Some v => match indirect_encode lower set_iter lookup None v with
              | Ok d => (Tag (t_name t) (Some d), Ok tt)
              | Err e => (t, Err e)
              end
  end.
(** misc.py:50, 56: the first item of the name is changed in its place *)
Fixpoint set_first (tags : list tag) (key : option (list Z)) (v : option val) : list tag * result unit :=
  match tags with
  | [] => ([], Ok tt)
  | t :: r => if has_name key t then (fst (set_value t v) :: r, snd (set_value t v))
              else (t :: fst (set_first r key v), snd (set_first r key v))
  end.
(** misc.py:49-56 __setitem__: the list afterwards, and whether it raised *)
Definition setitem (tags : list tag) (key : option (list Z)) (v : option val) : list tag * result unit :=
  if contains tags key then set_first tags key v
  else match (match key with Some k => do d <- encode_utf16le k ;; Ok (Some d) | None => Ok None end) with
       | Err e => (tags, Err e)
       | Ok n => let r := set_value (Tag n None) v in (tags ++ [fst r], snd r)
       end.
(** assignments in turn; the first that raises ends it *)
Fixpoint assign (tags : list tag) (l : list (list Z * val)) : list tag * result unit :=
  match l with
  | [] => (tags, Ok tt)
  | (k, v) :: l => match setitem tags (Some k) (Some v) with
                   | (tags, Ok _) => assign tags l
                   | (tags, Err e) => (tags, Err e)
                   end
  end.
End Tags.
