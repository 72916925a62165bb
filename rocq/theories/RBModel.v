(** The sibling trees of a directory: red-black insertion and removal as the code does them,
    on a store of entries linked by ids (cfb.py:375-466 and 672-987). *)
From Verif Require Import Base.
From Coq Require Import ZArith List Bool.
Import ListNotations.
Open Scope Z_scope.

(** An entry as this code sees it. Simplification: entries are looked up by id in one store;
    that the objects behind an id behave like that is C14. Names are lists of code points. *)
Record dent : Type := mkd { d_name : list Z; d_kind : Z; d_red : bool; d_left : option Z; d_right : option Z; d_child : option Z }.
(** The entries by id: storage.read_dir_entry (cfb.py:1712-1734) *)
Definition store : Type := Z -> dent.

(** The false root that insert and pop make (757, 869). It has no id (dir_id is None); here it is
    entry -1, and a link set to it becomes None (709-713). *)
Definition HEAD : Z := -1.
(** cfb.py:709-713: the id of the entry given, or None *)
Definition link_of (v : option Z) : option Z := match v with Some i => if i =? HEAD then None else Some i | None => None end.
(** an assignment to a field of entry [i] *)
Definition supd (st : store) (i : Z) (e : dent) : store := fun j => if j =? i then e else st j.

(** cfb.py:706-724 entry[index], with index 0 as false and 1 as true *)
Definition kid (st : store) (i : Z) (d : bool) : option Z := if d then d_right (st i) else d_left (st i).
(** cfb.py:709-718 entry[index] = value *)
Definition set_kid (st : store) (i : Z) (d : bool) (v : option Z) : store :=
  let e := st i in
  supd st i (if d then mkd (d_name e) (d_kind e) (d_red e) (d_left e) (link_of v) (d_child e)
             else mkd (d_name e) (d_kind e) (d_red e) (link_of v) (d_right e) (d_child e)).
(** cfb.py:556-563 *)
Definition set_red (st : store) (i : Z) (b : bool) : store :=
  let e := st i in supd st i (mkd (d_name e) (d_kind e) b (d_left e) (d_right e) (d_child e)).
(** cfb.py:591-594 *)
Definition set_child (st : store) (i : Z) (v : option Z) : store :=
  let e := st i in supd st i (mkd (d_name e) (d_kind e) (d_red e) (d_left e) (d_right e) v).

Section Code.
(** str.upper; any function *)
Variable upper : list Z -> list Z.

(** python compares strings by code points *)
Fixpoint lex (a b : list Z) : bool :=
  match a, b with
  | [], [] => false
  | [], _ :: _ => true
  | _ :: _, [] => false
  | x :: a', y :: b' => (x <? y) || ((x =? y) && lex a' b')
  end.
(** cfb.py:672-681 __lt__ *)
Definition name_lt (a b : list Z) : bool :=
  if zlen a =? zlen b then lex (upper a) (upper b) else zlen a <? zlen b.
(** cfb.py:696-704 __eq__ *)
Definition name_eq (a b : list Z) : bool :=
  if zlen a =? zlen b then zlist_eqb (upper a) (upper b) else false.
(** cfb.py:672-681 __lt__ of two entries *)
Definition ent_lt (st : store) (i j : Z) : bool := name_lt (d_name (st i)) (d_name (st j)).

(** cfb.py:375-384 *)
Definition is_red (st : store) (v : option Z) : bool := match v with Some i => d_red (st i) | None => false end.
(** Python == on entries that may be None; the ids decide *)
Definition same (a b : option Z) : bool :=
  match a, b with Some i, Some j => i =? j | None, None => true | _, _ => false end.
(** cfb.py:383-384 is_parent_of *)
Definition is_parent_of (st : store) (p : Z) (v : option Z) : bool := same (kid st p false) v || same (kid st p true) v.

(** entry[..] of None *)
Definition deref (v : option Z) : result Z := match v with Some i => Ok i | None => Err TypeError end.

(** cfb.py:418-429 jsw_single *)
Definition jsw_single (st : store) (root : Z) (d : bool) : result (store * Z) :=
  do s <- deref (kid st root (negb d)) ;;
  let st1 := set_kid st root (negb d) (kid st s d) in
  let st2 := set_kid st1 s d (Some root) in
  Ok (set_red (set_red st2 root true) s false, s).
(** cfb.py:431-434 jsw_double *)
Definition jsw_double (st : store) (root : Z) (d : bool) : result (store * Z) :=
  do o <- deref (kid st root (negb d)) ;;
  do (st1, n) <- jsw_single st o (negb d) ;;
  jsw_single (set_kid st1 root (negb d) (Some n)) root d.

(** cfb.py:761-766 the variables of insert *)
Record ivars : Type := mkiv { i_gggp : option Z; i_ggp : option Z; i_gp : option Z; i_p : option Z; i_node : option Z; i_dir : bool; i_last : bool }.

(** cfb.py:777-785: insert the entry, or flip colours *)
Definition ins_node (st : store) (e : Z) (v : ivars) : result (store * Z) :=
  match i_node v with
  | None => do p <- deref (i_p v) ;; Ok (set_kid st p (i_dir v) (Some e), e)
  | Some x =>
    match kid st x false, kid st x true with
    | Some l, Some r => if d_red (st l) && d_red (st r) then Ok (set_red (set_red (set_red st x true) l false) r false, x) else Ok (st, x)
    | _, _ => Ok (st, x)
    end
  end.

(** cfb.py:788-822: repair a red entry under a red parent *)
Definition ins_fix (st : store) (x : Z) (v : ivars) : result (store * ivars) :=
  if is_red st (Some x) && is_red st (i_p v) then
    do p <- deref (i_p v) ;;
    do t <- deref (i_ggp v) ;;
    do d2 <- (if same (kid st t false) (i_gp v) then Ok false else if same (kid st t true) (i_gp v) then Ok true else Err CompoundError) ;;
    do g <- deref (i_gp v) ;;
    if same (Some x) (kid st p (i_last v)) then
      do (st1, n) <- jsw_single st g (negb (i_last v)) ;;
      Ok (set_kid st1 t d2 (Some n), mkiv (i_gggp v) (i_gggp v) (i_ggp v) (i_p v) (i_node v) (i_dir v) (i_last v))
    else if same (Some x) (kid st p (negb (i_last v))) then
      do (st1, n) <- jsw_double st g (negb (i_last v)) ;;
      Ok (set_kid st1 t d2 (Some n), mkiv (i_gggp v) None (if t =? HEAD then None else i_gggp v) (i_ggp v) (i_node v) (i_dir v) (i_last v))
    else Err CompoundError
  else Ok (st, v).

(** cfb.py:828-845: one step down, with its assertions *)
Definition ins_down (st : store) (e x : Z) (v : ivars) : result ivars :=
  let dir := negb (ent_lt st e x) in
  let gggp := match i_ggp v with Some t => Some t | None => i_gggp v end in
  let ggp := match i_gp v with Some g => Some g | None => i_ggp v end in
  let gp := i_p v in
  let node := kid st x dir in
  guard (is_parent_of st x node) else AssertionError ;;
  guard (match gp with Some g => is_parent_of st g (Some x) | None => true end) else AssertionError ;;
  guard (match ggp with Some t => is_parent_of st t gp | None => true end) else AssertionError ;;
  Ok (mkiv gggp ggp gp (Some x) node dir (i_dir v)).

(** cfb.py:775-850: the loop; [fuel] counts max_dirs_entries - count *)
Fixpoint ins_loop (fuel : nat) (st : store) (e : Z) (v : ivars) : result store :=
  match fuel with
  | O => Err CompoundError
  | S n =>
    do (st1, x) <- ins_node st e v ;;
    do (st2, v2) <- ins_fix st1 x v ;;
    if x =? e then Ok st2 else
    do v3 <- ins_down st2 e x v2 ;;
    ins_loop n st2 e v3
  end.

(** cfb.py:757-758, 869-871 head *)
Definition new_head (child : option Z) : dent := mkd [] 0 true None child None.

(** cfb.py:746-854 insert; [maxn] is max_dirs_entries. Line 770 fails if there is no child. *)
Definition insert (st : store) (self e maxn : Z) : result store :=
  let st1 := set_red st e true in
  match d_child (st1 self) with
  | None => Err TypeError
  | Some root =>
    let st2 := supd (set_child st1 self None) HEAD (new_head (Some root)) in
    do st3 <- ins_loop (Z.to_nat maxn) st2 e (mkiv None (Some HEAD) None None (Some root) false false) ;;
    let st4 := set_child st3 self (d_right (st3 HEAD)) in
    do c <- deref (d_child (st4 self)) ;;
    Ok (set_red st4 c false)
  end.

(** cfb.py:729-741 add_child (children_cache is kept by the caller's model) *)
Definition add_child (st : store) (self e maxn : Z) : result store :=
  let st1 := set_red st e false in
  match d_child (st1 self) with
  | None => Ok (set_child st1 self (Some e))
  | Some _ => insert st1 self e maxn
  end.

(** cfb.py:436-449 find_entry_parent; [depth] is max_depth - count *)
Fixpoint find_entry_parent (depth : nat) (st : store) (parent node : option Z) (e : Z) : result (option Z) :=
  match node, depth with
  | Some x, S n => if x =? e then Ok parent else find_entry_parent n st (Some x) (kid st x (negb (ent_lt st e x))) e
  | _, _ => Err CompoundError
  end.

(** cfb.py:869-879 the variables of pop *)
Record pvars : Type := mkpv { p_node : Z; p_p : option Z; p_gp : option Z; p_dir : bool; p_found : bool; p_egp : option Z }.

(** cfb.py:903-941: push the red entry down. Returns the new parent. [last] is the direction from the
    parent to the node. *)
Definition pop_push (st : store) (x p : Z) (gp : option Z) (d last : bool) : result (store * Z) :=
  if negb (is_red st (Some x)) && negb (is_red st (kid st x d)) then
    if is_red st (kid st x (negb d)) then
      do (st1, n) <- jsw_single st x d ;;
      let st2 := set_kid st1 p last (Some n) in
      do p2 <- deref (kid st2 p last) ;;
      guard (is_parent_of st2 p2 (Some x)) else AssertionError ;;
      Ok (st2, p2)
    else
      match kid st p (negb d) with
      | None => Ok (st, p)
      | Some s =>
        if negb (is_red st (kid st s (negb last))) && negb (is_red st (kid st s last)) then
          Ok (set_red (set_red (set_red st p false) s true) x true, p)
        else
          do g <- deref gp ;;
          let eqp v := match v with Some y => name_eq (d_name (st y)) (d_name (st p)) | None => false end in
          do d2 <- (if eqp (kid st g false) then Ok false else if eqp (kid st g true) then Ok true else Err CompoundError) ;;
          do (st1, n) <- (if is_red st (kid st s last) then jsw_double st p last else jsw_single st p last) ;;
          let st2 := set_red (set_kid st1 g d2 (Some n)) x true in
          do n2 <- deref (kid st2 g d2) ;;
          let st3 := set_red st2 n2 true in
          do a <- deref (kid st3 n2 false) ;;
          let st4 := set_red st3 a false in
          do b <- deref (kid st4 n2 true) ;;
          let st5 := set_red st4 b false in
          guard (is_parent_of st5 p (Some x)) else AssertionError ;;
          Ok (st5, p)
      end
  else Ok (st, p).

(** cfb.py:882-943: the loop; [fuel] counts max_dirs_entries - count, and what is left is returned *)
Fixpoint pop_loop (fuel : nat) (st : store) (e : Z) (v : pvars) : result (store * pvars * nat) :=
  match kid st (p_node v) (p_dir v) with
  | None => Ok (st, v, fuel)
  | Some x =>
    match fuel with
    | O => Ok (st, v, O)
    | S n =>
      let last := p_dir v in
      let gp := p_p v in
      let p := p_node v in
      let dir := ent_lt st x e in
      let isE := x =? e in
      let found := p_found v || isE in
      let egp := if isE then match gp with Some g => Some g | None => Some HEAD end else p_egp v in
      do (st1, p1) <- pop_push st x p gp dir last ;;
      pop_loop n st1 e (mkpv x (Some p1) gp dir found egp)
    end
  end.

(** cfb.py:856-987 pop. [par] is self.parent. The cached listing is kept by the caller's model. *)
Definition pop (st : store) (par e maxn : Z) : result store :=
  let st0 := supd st HEAD (new_head (d_child (st par))) in
  do (st1, v, more) <- pop_loop (Z.to_nat maxn) st0 e (mkpv HEAD None None true false None) ;;
  guard (p_found v) else AssertionError ;;
  guard (negb (Nat.eqb more 0)) else CompoundError ;;
  do ep0 <- find_entry_parent 4 st1 None (p_egp v) e ;;
  do ep <- deref ep0 ;;
  do ed <- (if same (kid st1 ep false) (Some e) then Ok false else if same (kid st1 ep true) (Some e) then Ok true else Err CompoundError) ;;
  let x := p_node v in
  let isNone (v : option Z) := match v with None => true | Some _ => false end in
  do st2 <- (if x =? e then Ok (set_kid st1 ep ed (kid st1 e (isNone (kid st1 e false))))
    else
      do p <- deref (p_p v) ;;
      let a := set_kid st1 p (same (kid st1 p true) (Some x)) (kid st1 x (isNone (kid st1 x false))) in
      let b := set_kid a x false (kid a e false) in
      let c := set_kid b x true (kid b e true) in
      Ok (set_kid (set_red c x (d_red (c e))) ep ed (Some x))) ;;
  let st3 := set_child st2 par (d_right (st2 HEAD)) in
  let st4 := match d_child (st3 par) with Some c => if c =? 0 then st3 else set_red st3 c false | None => st3 end in
  Ok (set_kid (set_kid st4 e false None) e true None).
End Code.
