(** A client that works on a writable compound file, sets fields of its directory entries, flushes,
    closes the file and opens it again, any number of times; and what it should see. *)
From Verif Require Import Base Codec DirEntryModel LRUModel CfbModel CfbSave StreamSpec StreamRun.
From Coq Require Import ZArith List Bool.
Import ListNotations.
Open Scope Z_scope.

(** ** The client of the library *)
Record sess : Type := mks { q_f : cfile; q_hs : Z -> option handle; q_live : list Z }.
(** The part of the session that streams see (no counterpart in the code) *)
Definition drv_of (q : sess) : drv := mkd (c_s (q_f q)) (q_hs q) (q_live q).

(** the fields of an entry other than its start sector and size (cfb.py:469-489: bytes 0..115), of
    some type other than "empty" *)
Definition rest_ok (r : list Z) : bool :=
  (zlen r =? 116) && forallb (fun b => (0 <=? b) && (b <? 256)) r && negb (byte_at r 66 =? 0).

(** What a client does *)
Inductive sop : Type :=
| SNew (rest : list Z)             (* a new entry with these fields *)
| SStream (o : op)                 (* an operation on a stream *)
| SSet (i : Z) (rest : list Z)     (* set the fields of an entry *)
| SGet (i : Z)                     (* read the fields of an entry *)
| SFlush                           (* write the modified entries to the file *)
| SReopen (cap : nat).             (* close, and open the same bytes *)

(** What a client sees *)
Inductive sobs : Type := SV (v : obs) | SRest (r : list Z) | SDone | SIllegal.

(** Whether start sector and size are the same *)
Definition ent_eqb (a b : entry) : bool :=
  match e_sid a, e_sid b with None, None => true | Some x, Some y => x =? y | _, _ => false end && (e_size a =? e_size b).

(** cfb.py:661-670 mark_modified, called by the setters of sector_id and byte_size (641-659).
    Simplifications: an assignment that leaves the value as it was does not mark the entry (its
    image does not change either); the flush that happens by itself when more than 128 entries are
    modified happens between operations, as SFlush. *)
Definition touched (s s' : cfb) (ids : list Z) : list Z := filter (fun i => negb (ent_eqb (ents s i) (ents s' i))) ids.
(** cfb.py:661-670: those entries enter self.modified *)
Definition mark (c : cfile) (s' : cfb) (ids : list Z) : cfile := with_mod (with_s c s') (touched (c_s c) s' ids ++ c_mod c).

(** cfb.py:501-639: setters of the other fields, each with mark_modified *)
Definition set_rest (c : cfile) (i : Z) (r : list Z) : cfile :=
  mkcf (c_s c) (c_class c) (c_minor c) (c_major c) (c_dstart c) (c_sig c) (put (c_rest c) i r) (i :: c_mod c).

(** The operations that callers make *)
Definition slegal (q : sess) (o : sop) : bool :=
  match o with
  | SNew r => rest_ok r
  | SStream ONew => false
  | SStream _ => true
  | SSet i r => existsb (Z.eqb i) (0 :: q_live q) && rest_ok r
  | SGet i => existsb (Z.eqb i) (0 :: q_live q)
  | SFlush | SReopen _ => true
  end.

(** One operation *)
Definition scall (q : sess) (o : sop) : result (sess * sobs) :=
  let c := q_f q in
  match o with
  | SNew r =>
    do (d, v) <- call (drv_of q) ONew ;;
    match v with
    | VId i => Ok (mks (set_rest (mark c (d_cfb d) [0]) i r) (d_hs d) (d_live d), SV v)
    | _ => Err GenericError
    end
  | SStream o =>
    do (d, v) <- step (drv_of q) o ;;
    match o with
    (* cfb.py:1862-1877 free_dir_entry takes the entry out of self.modified *)
    | ORemove e => let c1 := mark c (d_cfb d) [0] in
        Ok (mks (with_mod c1 (if dlegal (drv_of q) o then remove Z.eq_dec e (c_mod c1) else c_mod c1)) (d_hs d) (d_live d), SV v)
    | _ => Ok (mks (mark c (d_cfb d) (match target o with Some e => [0; e] | None => [0] end)) (d_hs d) (d_live d), SV v)
    end
  | SSet i r => Ok (mks (set_rest c i r) (q_hs q) (q_live q), SDone)
  | SGet i => Ok (q, SRest (c_rest c i))
  | SFlush => do c1 <- flush c ;; Ok (mks c1 (q_hs q) (q_live q), SDone)
  | SReopen cap => do f <- close c ;; do c1 <- open_file f cap ;; Ok (mks c1 (fun _ => None) (q_live q), SDone)
  end.
(** One operation, if callers make it *)
Definition sstep (q : sess) (o : sop) : result (sess * sobs) := if slegal q o then scall q o else Ok (q, SIllegal).
(** A sequence of operations *)
Fixpoint srun (q : sess) (ops : list sop) : result (sess * list sobs) :=
  match ops with
  | [] => Ok (q, [])
  | o :: rest => do (q1, v) <- sstep q o ;; do (q2, vs) <- srun q1 rest ;; Ok (q2, v :: vs)
  end.

(** a session on a new file *)
Definition snew (sector : Z) (cap : nat) (f cls root : list Z) : result sess :=
  do c <- create_file sector cap f cls root ;; Ok (mks c (fun _ => None) []).

(** ** What it should see: streams as in StreamSpec, one record of fields per entry, and a reopen
    that changes nothing but closes the handles *)
Record sspec : Type := mksp { p_a : astate; p_rest : Z -> list Z }.

(** Specification: the operations that callers make *)
Definition plegal (p : sspec) (o : sop) : bool :=
  match o with
  | SNew r => rest_ok r
  | SStream ONew => false
  | SStream _ => true
  | SSet i r => existsb (Z.eqb i) (0 :: a_live (p_a p)) && rest_ok r
  | SGet i => existsb (Z.eqb i) (0 :: a_live (p_a p))
  | SFlush | SReopen _ => true
  end.

(** Specification of one operation *)
Inductive pstep (p : sspec) : sop -> sobs -> sspec -> Prop :=
| P_illegal : forall o, plegal p o = false -> pstep p o SIllegal p
| P_new : forall r i a', rest_ok r = true -> astep (p_a p) ONew (VId i) a' ->
    pstep p (SNew r) (SV (VId i)) (mksp a' (put (p_rest p) i r))
| P_stream : forall o v a', o <> ONew -> astep (p_a p) o v a' -> pstep p (SStream o) (SV v) (mksp a' (p_rest p))
| P_set : forall i r, plegal p (SSet i r) = true -> pstep p (SSet i r) SDone (mksp (p_a p) (put (p_rest p) i r))
| P_get : forall i, plegal p (SGet i) = true -> pstep p (SGet i) (SRest (p_rest p i)) p
| P_flush : pstep p SFlush SDone p
| P_reopen : forall cap, pstep p (SReopen cap) SDone
    (mksp (mka (a_live (p_a p)) (a_data (p_a p)) (fun _ => None)) (p_rest p)).

(** and of a sequence *)
Inductive psteps : sspec -> list sop -> list sobs -> sspec -> Prop :=
| PS_nil : forall p, psteps p [] [] p
| PS_cons : forall p o v p1 ops vs p2, pstep p o v p1 -> psteps p1 ops vs p2 -> psteps p (o :: ops) (v :: vs) p2.

(** a new file has no streams and the root entry *)
Definition pnew (root : list Z) : sspec := mksp (mka [] (fun _ => []) (fun _ => None)) (fun _ => root).
