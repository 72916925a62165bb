(** A namespace as an abstract tree: a map from paths to entries. *)
From Coq Require Import ZArith List Bool.
Import ListNotations.
From Verif Require Import Base RBSpec.
Open Scope Z_scope.

Definition name : Type := list Z.
Definition path : Type := list name.
(** id and type of the entry at a path; types: 1 storage, 2 stream, 5 root storage *)
Definition pmap : Type := path -> option (Z * Z).
Definition is_storage (k : Z) : Prop := k = 1 \/ k = 5.

(** names that can be part of a path string, and the string of a path *)
Definition clean_name (n : name) : Prop := n <> [] /\ ~ In 47 n.
Definition clean (p : path) : Prop := Forall clean_name p.
Definition text_of (p : path) : list Z := match p with [] => [47] | _ => flat_map (fun n => 47 :: n) p end.

(** [p] leads through a stream *)
Definition blocked (m : pmap) (p : path) : Prop := exists q n r i, p = q ++ n :: r /\ m q = Some (i, 2).
(** [d] is the content of the storage at [p]: each child once, nothing else *)
Definition listing (m : pmap) (p : path) (d : list (name * Z)) : Prop :=
  NoDup (map fst d) /\ forall n j, In (n, j) d <-> exists k, m (p ++ [n]) = Some (j, k).
Definition fresh (m : pmap) (i : Z) : Prop := forall q k, m q <> Some (i, k).
Definition below (p x : path) : Prop := exists r, x = p ++ r.

(** the map after each kind of change *)
Definition added_at (m : pmap) (p : path) (i k : Z) (m' : pmap) : Prop := m' p = Some (i, k) /\ forall x, x <> p -> m' x = m x.
Definition cut_at (m : pmap) (p : path) (m' : pmap) : Prop := (forall r, m' (p ++ r) = None) /\ forall x, ~ below p x -> m' x = m x.
Definition moved (m : pmap) (src dst : path) (m' : pmap) : Prop :=
  (forall r, m' (dst ++ r) = m (src ++ r)) /\ (forall x, ~ below dst x -> below src x -> m' x = None) /\
  (forall x, ~ below dst x -> ~ below src x -> m' x = m x).
Definition same_map (m m' : pmap) : Prop := forall x, m' x = m x.

Inductive op : Type := OFind (p : path) | OExists (p : path) | OList (p : path) | OCreate (p : path) (k : Z) | ORemove (p : path)
| OMove (src dst : path) | ORmtree (p : path) | OMakedirs (p : path) | OTouch (p : path) (n : name).
Inductive obs : Type := VId (o : option Z) | VBool (b : bool) | VList (d : list (name * Z)) | VUnit | VErr (e : err).

(** what a look-up gives *)
Inductive looks (m : pmap) (p : path) : result (option (Z * Z)) -> Prop :=
| L_block : blocked m p -> looks m p (Err ValueError)
| L_see : ~ blocked m p -> looks m p (Ok (m p)).

Section Spec.
(** which names the format can store, and why not *)
Variable name_check : name -> result unit.

Inductive creates (m : pmap) (p : path) (k : Z) : obs -> pmap -> Prop :=
| C_block : forall m', looks m p (Err ValueError) -> same_map m m' -> creates m p k (VErr ValueError) m'
| C_exists : forall e m', looks m p (Ok (Some e)) -> same_map m m' -> creates m p k (VErr ValueError) m'
| C_orphan : forall q n m', p = q ++ [n] -> looks m p (Ok None) -> m q = None -> same_map m m' -> creates m p k (VErr ValueError) m'
| C_name : forall q n d m' e, p = q ++ [n] -> looks m p (Ok None) -> m q = Some d -> name_check n = Err e -> same_map m m' -> creates m p k (VErr e) m'
| C_new : forall q n d i m', p = q ++ [n] -> looks m p (Ok None) -> m q = Some d -> is_storage (snd d) -> name_check n = Ok tt -> fresh m i ->
    added_at m p i k m' -> creates m p k (VId (Some i)) m'.

(** makedirs: the missing prefixes are created one after the other, until something is refused *)
Inductive makes (m : pmap) : path -> path -> result unit -> pmap -> Prop :=
| K_end : forall done m', same_map m m' -> makes m done [] (Ok tt) m'
| K_have : forall done n rest e r m', looks m (done ++ [n]) (Ok (Some e)) -> makes m (done ++ [n]) rest r m' -> makes m done (n :: rest) r m'
| K_block : forall done n rest m', looks m (done ++ [n]) (Err ValueError) -> same_map m m' -> makes m done (n :: rest) (Err ValueError) m'
| K_new : forall done n rest i m1 r m', looks m (done ++ [n]) (Ok None) -> creates m (done ++ [n]) 1 (VId (Some i)) m1 -> makes m1 (done ++ [n]) rest r m' -> makes m done (n :: rest) r m'
| K_refuse : forall done n rest e m', looks m (done ++ [n]) (Ok None) -> creates m (done ++ [n]) 1 (VErr e) m' -> makes m done (n :: rest) (Err e) m'.

Inductive spec_step (m : pmap) : op -> obs -> pmap -> Prop :=
| S_find_err : forall p m', looks m p (Err ValueError) -> same_map m m' -> spec_step m (OFind p) (VErr ValueError) m'
| S_find : forall p e m', looks m p (Ok e) -> same_map m m' -> spec_step m (OFind p) (VId (option_map fst e)) m'
| S_exists_err : forall p m', looks m p (Err ValueError) -> same_map m m' -> spec_step m (OExists p) (VErr ValueError) m'
| S_exists : forall p e m', looks m p (Ok e) -> same_map m m' -> spec_step m (OExists p) (VBool (match e with Some _ => true | None => false end)) m'
| S_list_err : forall p m', looks m p (Err ValueError) \/ looks m p (Ok None) \/ (exists i, looks m p (Ok (Some (i, 2)))) -> same_map m m' -> spec_step m (OList p) (VErr ValueError) m'
| S_list : forall p i k d m', looks m p (Ok (Some (i, k))) -> is_storage k -> listing m p d -> same_map m m' -> spec_step m (OList p) (VList d) m'
| S_create : forall p k o m', creates m p k o m' -> spec_step m (OCreate p k) o m'
| S_remove_err : forall p m', looks m p (Err ValueError) \/ looks m p (Ok None) \/ p = [] \/ (exists n i k, m p = Some (i, 1) /\ m (p ++ [n]) = Some k) ->
    same_map m m' -> spec_step m (ORemove p) (VErr ValueError) m'
| S_remove : forall p i k m', looks m p (Ok (Some (i, k))) -> p <> [] -> (forall n, m (p ++ [n]) = None) -> cut_at m p m' -> spec_step m (ORemove p) VUnit m'
| S_makedirs : forall p e m', makes m [] p (Ok tt) m' -> looks m' p (Ok (Some e)) -> spec_step m (OMakedirs p) (VId (Some (fst e))) m'
| S_makedirs_err : forall p e m', makes m [] p (Err e) m' -> spec_step m (OMakedirs p) (VErr e) m'
| S_rmtree_err : forall p m', looks m p (Err ValueError) \/ (exists i, looks m p (Ok (Some (i, 2)))) -> same_map m m' -> spec_step m (ORmtree p) (VErr ValueError) m'
| S_rmtree_none : forall p m', looks m p (Ok None) -> same_map m m' -> spec_step m (ORmtree p) (VErr GenericError) m'
| S_rmtree : forall p i m', looks m p (Ok (Some (i, 1))) -> cut_at m p m' -> spec_step m (ORmtree p) VUnit m'
(* the entry found at p is asked to touch n *)
| S_touch_err : forall p n m', looks m p (Err ValueError) \/ (exists i, looks m p (Ok (Some (i, 2)))) -> same_map m m' -> spec_step m (OTouch p n) (VErr ValueError) m'
| S_touch_none : forall p n m', looks m p (Ok None) -> same_map m m' -> spec_step m (OTouch p n) (VErr GenericError) m'
| S_touch_have : forall p n i k e m', looks m p (Ok (Some (i, k))) -> is_storage k -> m (p ++ [n]) = Some e -> same_map m m' -> spec_step m (OTouch p n) (VId (Some (fst e))) m'
| S_touch_new : forall p n i k o m', looks m p (Ok (Some (i, k))) -> is_storage k -> m (p ++ [n]) = None -> creates m (p ++ [n]) 2 o m' -> spec_step m (OTouch p n) o m'
(* moving to the root path means moving into the root under the same name *)
| S_move_src : forall src dst m', looks m src (Err ValueError) \/ looks m src (Ok None) -> same_map m m' -> spec_step m (OMove src dst) (VErr ValueError) m'
| S_move_dst : forall (src dst d1 : path) e m', looks m src (Ok (Some e)) -> d1 = match dst with [] => [last src []] | _ => dst end ->
    (src = [] \/ looks m d1 (Err ValueError) \/ (exists e', looks m d1 (Ok (Some e'))) \/ (looks m d1 (Ok None) /\ m (removelast d1) = None)) ->
    same_map m m' -> spec_step m (OMove src dst) (VErr ValueError) m'
| S_move : forall (src dst d1 : path) i k i' k' m', looks m src (Ok (Some (i, k))) -> src <> [] -> d1 = match dst with [] => [last src []] | _ => dst end ->
    looks m d1 (Ok None) -> m (removelast d1) = Some (i', k') -> is_storage k' -> moved m src d1 m' -> spec_step m (OMove src dst) (VId (Some i)) m'.
End Spec.
