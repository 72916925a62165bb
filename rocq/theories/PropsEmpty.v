(** C57: a first write to a stream that holds no sectors *)
From Verif Require Import Base BaseFacts Codec DirEntryModel LRUModel CfbModel CfbInv CfbStream StreamSpec StreamRun CfbSave Session SessionStep PropsSession.
From Coq Require Import ZArith List Bool Lia.
Import ListNotations.
Open Scope Z_scope.

(** In a file this library wrote, where an empty chain is stored as FREESECT: an empty stream keeps
    every byte of a first write, through close and reopen. Missing from the full claim: an empty
    chain stored as ENDOFCHAIN, for which it is false (below). *)
Theorem C57_freesect_partial : forall q e cap d, reachable q -> In e (q_live q) -> e_size (ents (c_s (q_f q)) e) = 0 ->
  let ops := [SStream (OOpen e); SStream (OWrite e d); SReopen cap; SStream (OOpen e); SStream (ORead e (-1))] in
  srun q ops <> Err Overflow ->
  exists q', srun q ops = Ok (q', [SV VUnit; SV VUnit; SDone; SV VUnit; SV (VBytes d)]).
Proof.
  intros q e cap d H Hin Hz. cbv zeta. intros Hno. destruct (reachable_SR q H) as (p & HS).
  destruct (srun_refines [SStream (OOpen e); SStream (OWrite e d); SReopen cap; SStream (OOpen e); SStream (ORead e (-1))] _ _ HS) as [E|(q' & vs & p' & E & P & _)]; [contradiction|].
  assert (El : In e (a_live (p_a p))) by (destruct HS as ((El & _) & _); rewrite El; exact Hin).
  assert (Ed : a_data (p_a p) e = []).
  { destruct HS as ((_ & ch & hw & HI & HD & Hc & _) & _). cbn [drv_of d_cfb d_live] in *.
    assert (e <> 0). { destruct HD as (_ & _ & D & _). intros ->. apply NoDup_remove_2 in D. apply D. rewrite in_app_iff. auto. }
    rewrite (Hc e H0). apply content_nil. exact Hz. }
  exists q'. rewrite E. f_equal. f_equal. clear - P El Ed.
  assert (Q : forall a v a', astep a (OOpen e) v a' -> In e (a_live a) -> v = VUnit /\ a_live a' = a_live a /\ a_data a' e = a_data a e /\ a_pos a' e = Some 0).
  { intros a v a' S Hl. inversion S; subst; cbn; [|rewrite !put_same; auto]. exfalso. cbn in *. apply (live_b_In _ e) in Hl. cbn in *. congruence. }
  assert (Q2 : forall a v a', astep a (ORead e (-1)) v a' -> a_pos a e = Some 0 -> v = VBytes (a_data a e)).
  { intros a v a' S Hp. inversion S; subst; cbn in *.
    - rewrite Hp in *. discriminate.
    - assert (p0 = 0) by congruence. subst. rewrite zdrop_0 by lia. auto. }
  assert (Q4 : forall a v a', astep a (OWrite e d) v a' -> a_pos a e = Some 0 -> a_data a e = [] -> v = VUnit /\ a_live a' = a_live a /\ a_data a' e = d).
  { intros a v a' S Hp Hd. inversion S; subst; cbn in *.
    - rewrite Hp in *. discriminate.
    - rewrite put_same, Hd. assert (p0 = 0) by congruence. subst.
      assert (Hn : zdrop (0 + zlen d) (@nil Z) = []) by (unfold zdrop; apply skipn_nil). rewrite Hn, app_nil_r. auto. }
  assert (Q3 : forall p o v p', o <> ONew -> pstep p (SStream o) v p' -> exists w a', v = SV w /\ astep (p_a p) o w a' /\ p' = mksp a' (p_rest p)).
  { intros pp o v pp' Ho S. inversion S; subst; eauto. exfalso. destruct o; cbn in *; congruence. }
  inversion P as [|? ? ? ? ? ? ? S1 P1]; subst. apply Q3 in S1; [|discriminate]. destruct S1 as (w1 & a1 & -> & S1 & ->). apply Q in S1; auto. destruct S1 as (-> & L1 & D1 & Z1).
  inversion P1 as [|? ? ? ? ? ? ? S2 P2]; subst. apply Q3 in S2; [|discriminate]. destruct S2 as (w2 & a2 & -> & S2 & ->). apply Q4 in S2; auto; [|cbn [p_a]; congruence]. destruct S2 as (-> & L2 & D2). cbn [p_a] in *.
  inversion P2 as [|? ? ? ? ? ? ? S3 P3]; subst. inversion S3; subst; [discriminate|]. cbn [p_a] in *.
  inversion P3 as [|? ? ? ? ? ? ? S4 P4]; subst. apply Q3 in S4; [|discriminate]. destruct S4 as (w4 & a4 & -> & S4 & ->). apply Q in S4; [|cbn; rewrite L2, L1; auto]. destruct S4 as (-> & L4 & D4 & Z4).
  inversion P4 as [|? ? ? ? ? ? ? S5 P5]; subst. apply Q3 in S5; [|discriminate]. destruct S5 as (w5 & a5 & -> & S5 & ->). apply Q2 in S5; auto. subst.
  inversion P5; subst. cbn [p_a] in *. rewrite D4. cbn [a_data p_a]. reflexivity.
Qed.
Print Assumptions C57_freesect_partial.

(** ** A file from another program *)

(** open the bytes [f] of a file, write [data] to the stream of entry [e], close, open again: the session then *)
Definition write_once (f : list Z) (live : list Z) (e : Z) (data : list Z) : result (sess * list sobs) :=
  do c <- open_file f 3 ;;
  srun (mks c (fun _ => None) live) [SStream (OOpen e); SStream (OWrite e data); SReopen 3; SStream (OOpen e)].

(** a file with one empty stream, entry 4, as this library leaves it *)
Definition one_empty : result (list Z) :=
  do q0 <- snew 512 3 [] (zseq 1 16) ex_root ;;
  do (q, vs) <- srun q0 [SNew (repeat 1 116)] ;;
  close (q_f q).
Definition empty_file : list Z := match one_empty with Ok f => f | Err _ => [] end.

(** where the start sector of entry 4 is: the directory chain is [0; 2], entry 4 the first of sector 2 *)
Definition start_at : Z := 3 * 512 + 116.
(** the same file with the other encoding of the empty chain: [le 4 ENDOFCHAIN] at that place *)
Definition other_file : list Z := splice start_at [254; 255; 255; 255] empty_file.

Example C57_start_at : (do c <- open_file empty_file 3 ;; Ok (dir_chain (c_s c), ents (c_s c) 4)) = Ok ([0; 2], mkent None 0) /\
  (do c <- open_file other_file 3 ;; Ok (dir_chain (c_s c), ents (c_s c) 4)) = Ok ([0; 2], mkent (Some ENDOFCHAIN) 0) /\
  slice start_at (start_at + 4) empty_file = [255; 255; 255; 255] /\ zlen other_file = zlen empty_file.
Proof. vm_compute. auto. Qed.

(** what a session shows of a stream: reading it to the end *)
Definition rest_of (q : sess) (e : Z) : result (list sobs) := do (q1, vs) <- srun q [SStream (ORead e (-1))] ;; Ok vs.

Example C57_case : exists q, write_once empty_file [4] 4 [1; 2; 3] = Ok (q, [SV VUnit; SV VUnit; SDone; SV VUnit]) /\ rest_of q 4 = Ok [SV (VBytes [1; 2; 3])].
Proof.
  pose (r := write_once empty_file [4] 4 [1; 2; 3]).
  assert (A : match r with Ok (q, vs) => vs = [SV VUnit; SV VUnit; SDone; SV VUnit] /\ rest_of q 4 = Ok [SV (VBytes [1; 2; 3])] | Err _ => False end) by (vm_compute; auto).
  change (exists q, r = Ok (q, [SV VUnit; SV VUnit; SDone; SV VUnit]) /\ rest_of q 4 = Ok [SV (VBytes [1; 2; 3])]).
  clearbody r. destruct r as [[q vs]|]; [|contradiction]. destruct A as [-> B]. exists q. split; [reflexivity|exact B].
Qed.

(** With ENDOFCHAIN the write, the close and the second open all succeed, the entry then says three
    bytes from ENDOFCHAIN, the sector written is in no chain, and reading the stream raises. *)
Theorem C57_endofchain_refuted : exists f e d q,
  (exists c, open_file f 3 = Ok c /\ ents (c_s c) e = mkent (Some ENDOFCHAIN) 0) /\
  write_once f [e] e d = Ok (q, [SV VUnit; SV VUnit; SDone; SV VUnit]) /\
  ents (c_s (q_f q)) e = mkent (Some ENDOFCHAIN) (zlen d) /\ rest_of q e = Err IndexError.
Proof.
  exists other_file, 4, [1; 2; 3].
  pose (r := write_once other_file [4] 4 [1; 2; 3]).
  pose (r0 := open_file other_file 3).
  assert (A0 : match r0 with Ok c => ents (c_s c) 4 = mkent (Some ENDOFCHAIN) 0 | Err _ => False end) by (vm_compute; auto).
  assert (A : match r with Ok (q, vs) => vs = [SV VUnit; SV VUnit; SDone; SV VUnit] /\ ents (c_s (q_f q)) 4 = mkent (Some ENDOFCHAIN) 3 /\ rest_of q 4 = Err IndexError | Err _ => False end) by (clear A0 r0; vm_compute; repeat split).
  change (exists q, (exists c, r0 = Ok c /\ ents (c_s c) 4 = mkent (Some ENDOFCHAIN) 0) /\ r = Ok (q, [SV VUnit; SV VUnit; SDone; SV VUnit]) /\
    ents (c_s (q_f q)) 4 = mkent (Some ENDOFCHAIN) (zlen [1; 2; 3]) /\ rest_of q 4 = Err IndexError).
  clearbody r r0. destruct r as [[q vs]|]; [|contradiction]. destruct r0 as [c|]; [|contradiction]. destruct A as (-> & B & C). exists q.
  split; [exists c; split; [reflexivity|exact A0]|]. split; [reflexivity|]. split; [exact B|exact C].
Qed.
Print Assumptions C57_endofchain_refuted.
