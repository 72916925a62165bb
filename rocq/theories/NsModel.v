(** The namespace of a compound file: paths, listings, creation, removal, moves
    (cfb.py:729-744, 970-1052, 1741-1758, 1833-2140). *)
From Coq Require Import ZArith List Bool.
Import ListNotations.
From Verif Require Import Base Codec RBModel LRUModel.
Open Scope Z_scope.

(** ** Path strings, lists of code points *)
Definition SL : Z := 47.
(** str.lstrip('/') and str.rstrip('/') *)
Fixpoint lstrip (l : list Z) : list Z := match l with c :: t => if c =? SL then lstrip t else l | [] => [] end.
(** str.rstrip('/') *)
Definition rstrip (l : list Z) : list Z := rev (lstrip (rev l)).
(** str.strip('/') *)
Definition strip (l : list Z) : list Z := rstrip (lstrip l).
(** str.split('/') *)
Fixpoint split (l : list Z) : list (list Z) :=
  match l with
  | [] => [[]]
  | c :: t => if c =? SL then [] :: split t else match split t with h :: r => (c :: h) :: r | [] => [[c]] end
  end.
(** '/'.join *)
Fixpoint join (l : list (list Z)) : list Z := match l with [] => [] | [a] => a | a :: r => a ++ SL :: join r end.
(** the text up to and with the last '/', and the rest (posixpath.split before it strips) *)
Fixpoint cut (l : list Z) : list Z * list Z :=
  match l with
  | [] => ([], [])
  | c :: t => let '(h, b) := cut t in match h with [] => if c =? SL then ([SL], b) else ([], c :: b) | _ => (c :: h, b) end
  end.
(** posixpath.dirname and basename. On Windows os.path also splits at backslashes; not modelled. *)
Definition dirname (l : list Z) : list Z := let h := fst (cut l) in if forallb (fun c => c =? SL) h then h else rstrip h.
(** posixpath.basename *)
Definition basename (l : list Z) : list Z := snd (cut l).
(** str.startswith('/') and str.endswith('/') *)
Definition startswith_sl (l : list Z) : bool := match l with c :: _ => c =? SL | [] => false end.
(** str.endswith('/') *)
Definition endswith_sl (l : list Z) : bool := startswith_sl (rev l).

(** ** Python dicts from names to entries, in insertion order *)
Definition dict : Type := list (list Z * Z).
(** d.get(n) *)
Fixpoint dget (d : dict) (n : list Z) : option Z := match d with [] => None | (m, i) :: t => if zlist_eqb m n then Some i else dget t n end.
(** d[n] = i *)
Fixpoint dset (d : dict) (n : list Z) (i : Z) : dict :=
  match d with [] => [(n, i)] | (m, j) :: t => if zlist_eqb m n then (m, i) :: t else (m, j) :: dset t n i end.
(** d.pop(n, None) *)
Definition ddel (d : dict) (n : list Z) : dict := filter (fun p => negb (zlist_eqb (fst p) n)) d.

(** ** State. [n_st]: the entries (see RBModel). [n_par]: their parent attributes; simplification: an
    entry that is dropped from memory and read again gets the same parent attribute. [n_free]:
    dir_freelist. [n_secs]: dir_sector_count, which lines 1118-1120 and 1749-1752 keep equal to the
    length of dir_fat_chain. [n_cache]: children_cache, as the recency list that C15 shows LRUCacheDict
    to be. [n_log]: the stream entries whose chains were given to free_fat_chain, in order; what that
    does to the tables is the allocator model's concern (C10). *)
Record ns : Type := mkns { n_st : store; n_par : Z -> option Z; n_free : list Z; n_secs : Z; n_cache : list (Z * dict); n_log : list Z }.
(** an assignment to a field of an entry *)
Definition with_st (s : ns) (x : store) : ns := mkns x (n_par s) (n_free s) (n_secs s) (n_cache s) (n_log s).
(** entry.parent = v *)
Definition with_par (s : ns) (i : Z) (v : option Z) : ns :=
  mkns (n_st s) (fun j => if j =? i then v else n_par s j) (n_free s) (n_secs s) (n_cache s) (n_log s).
(** self.dir_freelist and self.dir_sector_count *)
Definition with_free (s : ns) (x : list Z) (k : Z) : ns := mkns (n_st s) (n_par s) x k (n_cache s) (n_log s).
(** self.children_cache *)
Definition with_cache (s : ns) (x : list (Z * dict)) : ns := mkns (n_st s) (n_par s) (n_free s) (n_secs s) x (n_log s).
(** a call of free_fat_chain (cfb.py:1820-1831) *)
Definition with_log (s : ns) (x : list Z) : ns := mkns (n_st s) (n_par s) (n_free s) (n_secs s) (n_cache s) x.

(** A call returns, raises, or raises inside the tree code (lines 746-987) after the links have been
    changed; the state is not modelled then. *)
Inductive res (A : Type) : Type := Done (s : ns) (a : A) | Fail (s : ns) (e : err) | Broken (e : err).
Arguments Done {A} s a. Arguments Fail {A} s e. Arguments Broken {A} e.
(** One statement after another (no counterpart in the code) *)
Definition nbind {A B} (r : res A) (f : ns -> A -> res B) : res B :=
  match r with Done s a => f s a | Fail s e => Fail s e | Broken e => Broken e end.
Notation "'let*' s , x <- r ;; k" := (nbind r (fun s x => k)) (at level 200, s name, x pattern, r at level 100, k at level 200, right associativity).

(** directory entry types (cfb.py:40-45) *)
Definition STORAGE : Z := 1. Definition STREAM : Z := 2. Definition ROOT : Z := 5.
(** cfb.py:1016-1017 isdir *)
Definition isdir (k : Z) : bool := (k =? STORAGE) || (k =? ROOT).

(** ** children_cache *)
Definition cget (c : list (Z * dict)) (i : Z) : option dict := al_get Z dict Z.eqb c i.
(** get, and a later change of the dict that was returned *)
Definition cput (c : list (Z * dict)) (i : Z) (d : dict) : list (Z * dict) := (i, d) :: al_remove Z dict Z.eqb c i.
(** del children_cache[i] if it is there, cfb.py:1871-1872 *)
Definition cdel (c : list (Z * dict)) (i : Z) : list (Z * dict) := al_remove Z dict Z.eqb c i.

Section Code.
Variable upper : list Z -> list Z.
(** sector_size // 128 and the capacity of the children cache *)
Variables (per : Z) (cap : nat).

(** the number of entries the directory has room for (cfb.py:1749-1754) *)
Definition maxn (s : ns) : Z := n_secs s * per.
(** children_cache[i] = d for a key not yet there *)
Definition cadd (c : list (Z * dict)) (i : Z) (d : dict) : list (Z * dict) := (i, d) :: firstn (cap - 1) c.

(** cfb.py:1964-1980: the walk over a sibling tree; the top of the stack is first. [fuel] is only there
    for termination, the count check comes before. *)
Fixpoint list_loop (fuel : nat) (st : store) (mx count : Z) (stack : list Z) (acc : dict) : result dict :=
  match stack with
  | [] => Ok acc
  | i :: rest =>
    match fuel with
    | O => Err OutOfFuel
    | S n =>
      let acc1 := dset acc (d_name (st i)) i in
      guard (count + 1 <=? mx) else CompoundError ;;
      let s1 := match d_left (st i) with Some l => l :: rest | None => rest end in
      let s2 := match d_right (st i) with Some r => r :: s1 | None => s1 end in
      list_loop n st mx (count + 1) s2 acc1
    end
  end.

(** cfb.py:1934-1983 listdir_dict for an entry *)
Definition listdir_dict (s : ns) (i : Z) : res dict :=
  if negb (isdir (d_kind (n_st s i))) then Fail s ValueError else
  match cget (n_cache s) i with
  | Some d => Done (with_cache s (cput (n_cache s) i d)) d
  | None =>
    match d_child (n_st s i) with
    | None => Done (with_cache s (cadd (n_cache s) i [])) []
    | Some c =>
      match list_loop (S (Z.to_nat (maxn s))) (n_st s) (maxn s) 0 [c] [] with
      | Ok d => Done (with_cache s (cadd (n_cache s) i d)) d
      | Err e => Fail s e
      end
    end
  end.

(** cfb.py:1997-2013: the loop of find *)
Fixpoint descend (s : ns) (root : Z) (names : list (list Z)) : res (option Z) :=
  match names with
  | [] => Done s (Some root)
  | n :: rest =>
    let* s1, children <- listdir_dict s root ;;
    match dget children n with
    | None => Done s1 None
    | Some j => match rest with [] => Done s1 (Some j) | _ => descend s1 j rest end
    end
  end.
(** cfb.py:1985-2013 find, for a path string *)
Definition find (s : ns) (path : list Z) : res (option Z) :=
  if zlist_eqb path [SL] then Done s (Some 0) else descend s 0 (split (lstrip path)).
(** cfb.py:2070-2076 exists *)
Definition exists_ (s : ns) (path : list Z) : res bool :=
  let* s1, v <- find s path ;; Done s1 (match v with Some _ => true | None => false end).
(** cfb.py:1924-1983 listdir_dict for a path (listdir gives the values) *)
Definition listdir (s : ns) (path : list Z) : res dict :=
  let* s1, v <- find s path ;;
  match v with None => Fail s1 ValueError | Some i => listdir_dict s1 i end.

(** cfb.py:1741-1758 next_free_dir_id. Simplification: the new directory sector is always obtained. *)
Definition next_free_dir_id (s : ns) : ns * Z :=
  match n_free s with
  | i :: t => (with_free s t (n_secs s), i)
  | [] => match zseq (n_secs s * per) per with
          | i :: t => (with_free s t (n_secs s + 1), i)
          | [] => (s, 0)    (* sectors hold at least one entry *)
          end
  end.
(** cfb.py:501-514: what the name setter refuses *)
Definition check_name (n : list Z) : result unit :=
  do d <- encode_utf16 n ;; guard (zlen d <=? 64) else AssertionError ;; Ok tt.

(** cfb.py:729-744 DirEntry.add_child with its update of the cached listing *)
Definition attach (s : ns) (root i : Z) : res unit :=
  let s0 := with_par s i (Some root) in
  match add_child upper (n_st s0) root i (maxn s0) with
  | Err e => Broken e
  | Ok st =>
    let s1 := with_st s0 st in
    Done (match cget (n_cache s1) root with
          | Some d => with_cache s1 (cput (n_cache s1) root (dset d (d_name (st i)) i))
          | None => s1
          end) tt
  end.

(** cfb.py:1833-1860 create_dir_entry (the class id is left out) *)
Definition create_dir_entry (s : ns) (path : list Z) (kind : Z) : res Z :=
  let* s1, b <- exists_ s path ;;
  if b then Fail s1 ValueError else
  let* s2, v <- find s1 (dirname path) ;;
  match v with
  | None => Fail s2 ValueError
  | Some root =>
    if negb (isdir (d_kind (n_st s2 root))) then Fail s2 ValueError else
    let '(s3, i) := next_free_dir_id s2 in
    match check_name (basename path) with
    | Err e => Fail s3 e
    | Ok _ =>
      let s4 := with_st s3 (supd (n_st s3) i (mkd (basename path) kind true None None None)) in
      let* s5, _ <- attach s4 root i ;;
      Done s5 i
    end
  end.

(** cfb.py:856-987 DirEntry.pop with its update of the cached listing *)
Definition detach (s : ns) (i : Z) : res unit :=
  match n_par s i with
  | None => Fail s GenericError     (* AttributeError *)
  | Some par =>
    match pop upper (n_st s) par i (maxn s) with
    | Err e => Broken e
    | Ok st =>
      let s1 := with_st s st in
      match cget (n_cache s1) par with
      | Some d =>
        match dget d (d_name (st i)) with
        | None => Fail s1 KeyError
        | Some _ => Done (with_par (with_cache s1 (cput (n_cache s1) par (ddel d (d_name (st i))))) i None) tt
        end
      | None => Done (with_par s1 i None) tt
      end
    end
  end.

(** cfb.py:1862-1877 free_dir_entry (dir_cache and modified are the business of C14) *)
Definition free_dir_entry (s : ns) (i : Z) : ns :=
  let s1 := with_free s (n_free s ++ [i]) (n_secs s) in
  match cget (n_cache s1) i with Some _ => with_cache s1 (cdel (n_cache s1) i) | None => s1 end.
(** cfb.py:1899-1901, 1912-1914: free_fat_chain of a stream's chain *)
Definition free_chain (s : ns) (i : Z) : ns := with_log s (n_log s ++ [i]).

(** cfb.py:1880-1903 remove *)
Definition remove (s : ns) (path : list Z) : res unit :=
  let* s1, v <- find s path ;;
  match v with
  | None => Fail s1 ValueError
  | Some i =>
    let k := d_kind (n_st s1 i) in
    if k =? ROOT then Fail s1 ValueError else
    if (k =? STORAGE) && (match d_child (n_st s1 i) with Some _ => true | None => false end) then Fail s1 ValueError else
    let* s2, _ <- detach s1 i ;;
    let s3 := if k =? STREAM then free_chain s2 i else s2 in
    Done (free_dir_entry s3 i) tt
  end.

(** cfb.py:2043-2060 and 1906-1918: the bottom-up walk, with what rmtree does at each stop. The walk is a
    generator: a storage is listed, then the storages in it are walked, then rmtree handles it. *)
Definition rm_items (s : ns) (streams storages : list Z) : ns :=
  fold_left free_dir_entry storages (fold_left (fun s i => free_dir_entry (free_chain s i) i) streams s).
(** cfb.py:2043-2060 and 1906-1918, the walk *)
Fixpoint rm_visit (fuel : nat) (s : ns) (root : Z) : res unit :=
  match fuel with
  | O => Fail s OutOfFuel
  | S n =>
    let* s1, d <- listdir_dict s root ;;
    let items := map snd d in
    let dirs := filter (fun i => isdir (d_kind (n_st s1 i))) items in
    let streams := filter (fun i => negb (isdir (d_kind (n_st s1 i)))) items in
    let* s2, _ <- fold_left (fun r i => let* s', _ <- r ;; rm_visit n s' i) dirs (Done s1 tt) ;;
    let s3 := rm_items s2 streams dirs in
    Done (with_st s3 (set_child (n_st s3) root None)) tt
  end.
(** cfb.py:1906-1922 rmtree (and the start of walk, 2020-2030) *)
Definition rmtree (s : ns) (path : list Z) : res unit :=
  let* s1, v <- find s path ;;
  match v with
  | None => Fail s1 GenericError    (* AttributeError: None has no isdir *)
  | Some i =>
    if negb (isdir (d_kind (n_st s1 i))) then Fail s1 ValueError else
    let* s2, _ <- (match d_child (n_st s1 i) with
                   | None => Done s1 tt
                   | Some c => if c =? 0 then Done s1 tt else rm_visit (S (Z.to_nat (maxn s1))) s1 i
                   end) ;;
    remove s2 path
  end.

(** cfb.py:2084-2097 makedirs *)
Fixpoint makedirs_loop (s : ns) (root : list Z) (items : list (list Z)) : res unit :=
  match items with
  | [] => Done s tt
  | x :: rest =>
    let root1 := root ++ SL :: x in
    let* s1, b <- exists_ s root1 ;;
    let* s2, _ <- (if b then Done s1 0 else create_dir_entry s1 root1 STORAGE) ;;
    makedirs_loop s2 root1 rest
  end.
(** cfb.py:2084-2097 makedirs *)
Definition makedirs (s : ns) (path : list Z) : res (option Z) :=
  if negb (startswith_sl path) then Fail s AssertionError else
  let* s1, _ <- makedirs_loop s [] (split (strip path)) ;;
  find s1 path.

(** cfb.py:2099-2140 move *)
Definition move (s : ns) (src dst0 : list Z) : res Z :=
  let* s1, v <- find s src ;;
  match v with
  | None => Fail s1 ValueError
  | Some i =>
    let dst := if endswith_sl dst0 then dst0 ++ d_name (n_st s1 i) else dst0 in
    let* s2, b <- exists_ s1 dst ;;
    if b then Fail s2 ValueError else
    if zlist_eqb dst [SL] || zlist_eqb src [SL] then Fail s2 ValueError else
    let sp := split (strip dst) in
    let base := last sp [] in
    let* s3, w <- find s2 (SL :: join (removelast sp)) ;;
    match w with
    | None => Fail s3 ValueError
    | Some root =>
      if negb (isdir (d_kind (n_st s3 root))) then Fail s3 ValueError else
      let* s4, _ <- detach s3 i ;;
      match check_name base with
      | Err e => Fail s4 e
      | Ok _ =>
        let e := n_st s4 i in
        let s5 := with_st s4 (supd (n_st s4) i (mkd base (d_kind e) (d_red e) (d_left e) (d_right e) (d_child e))) in
        let* s6, _ <- attach s5 root i ;;
        match cget (n_cache s6) root with
        | None => Fail s6 KeyError
        | Some d => Done (with_cache s6 (cput (n_cache s6) root (dset d base i))) i
        end
      end
    end
  end.

(** cfb.py:1000-1009 DirEntry.path; [fuel] for termination *)
Definition ROOT_NAME : list Z := [82; 111; 111; 116; 32; 69; 110; 116; 114; 121].   (* "Root Entry" *)
Fixpoint path_loop (fuel : nat) (s : ns) (i : Z) (acc : list (list Z)) : result (list (list Z)) :=
  match fuel with
  | O => Err OutOfFuel
  | S n =>
    let name := d_name (n_st s i) in
    if zlist_eqb name ROOT_NAME then Ok acc else
    match n_par s i with None => Ok (name :: acc) | Some p => path_loop n s p (name :: acc) end
  end.
(** cfb.py:1000-1009 path *)
Definition path_of (s : ns) (i : Z) : result (list Z) :=
  do l <- path_loop (S (Z.to_nat (maxn s))) s i [] ;; Ok (SL :: join l).

(** cfb.py:1038-1052 DirEntry.get and touch *)
Definition touch (s : ns) (i : Z) (name : list Z) : res Z :=
  let* s1, d <- listdir_dict s i ;;
  match dget d name with
  | Some j => Done s1 j
  | None =>
    match path_of s1 i with
    | Err e => Fail s1 e
    | Ok p => create_dir_entry s1 (p ++ (if d_kind (n_st s1 i) =? ROOT then [] else [SL]) ++ name) STREAM
    end
  end.
End Code.
