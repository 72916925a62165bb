(** Any sequence of namespace calls against the specification. *)
From Coq Require Import ZArith List Bool Lia Sorting.Permutation Sorting.Sorted.
Import ListNotations.
From Verif Require Import Base BaseFacts LRUModel RBModel RBTree RBOrder RBInsert RBPop RBSpec RBLink RBAny NsModel NsSpec NsPath NsInv NsFind NsChange NsSteps NsTree NsMove.
Open Scope Z_scope.
Notation length := List.length.

Section Run.
Variable upper : list Z -> list Z.
Variables (per : Z) (cap : nat).
Notation Inv := (Inv upper per).
Notation none := (fun _ : Z => False).

(** one call with path strings *)
Definition ns_step (s : ns) (o : op) : res obs :=
  match o with
  | OFind p => let* s1, v <- find per cap s (text_of p) ;; Done s1 (VId v)
  | OExists p => let* s1, b <- exists_ per cap s (text_of p) ;; Done s1 (VBool b)
  | OList p => let* s1, d <- listdir per cap s (text_of p) ;; Done s1 (VList d)
  | OCreate p k => let* s1, i <- create_dir_entry upper per cap s (text_of p) k ;; Done s1 (VId (Some i))
  | ORemove p => let* s1, _ <- remove upper per cap s (text_of p) ;; Done s1 VUnit
  | OMove src dst => let* s1, i <- move upper per cap s (text_of src) (text_of dst) ;; Done s1 (VId (Some i))
  | ORmtree p => let* s1, _ <- rmtree upper per cap s (text_of p) ;; Done s1 VUnit
  | OMakedirs p => let* s1, v <- makedirs upper per cap s (text_of p) ;; Done s1 (VId v)
  | OTouch p n => let* s1, v <- find per cap s (text_of p) ;;
      match v with None => Fail s1 GenericError | Some i => let* s2, j <- touch upper per cap s1 i n ;; Done s2 (VId (Some j)) end
  end.
(** a run, up to an exception in the tree code; exceptions of the calls themselves are caught *)
Fixpoint ns_run (s : ns) (ops : list op) : list obs * option ns :=
  match ops with
  | [] => ([], Some s)
  | o :: rest =>
    match ns_step s o with
    | Done s1 v => let '(vs, r) := ns_run s1 rest in (v :: vs, r)
    | Fail s1 e => let '(vs, r) := ns_run s1 rest in (VErr e :: vs, r)
    | Broken e => ([], None)
    end
  end.

(** calls covered: path strings "/a/b" with names that are not empty; a new name is not like that of a
    sibling but for case; see [move_legal] for moves *)
Definition legal (m : pmap) (o : op) : Prop :=
  match o with
  | OFind p | OExists p | OList p | ORemove p => clean p
  | OCreate p k => clean p /\ (k = STORAGE \/ k = STREAM) /\ case_ok upper m p
  | OMove src dst => move_legal upper cap m src dst
  | ORmtree p => clean p /\ p <> []
  | OMakedirs p => clean p /\ cases_ok upper m [] p
  | OTouch p n => clean (p ++ [n]) /\ case_ok upper m (p ++ [n]) /\ ~ In ROOT_NAME p
  end.
(** calls that never take an entry out of its folder *)
Definition grows (o : op) : bool := match o with ORemove _ | ORmtree _ | OMove _ _ => false | _ => true end.
Fixpoint legal_run (m : pmap) (ops : list op) : Prop :=
  match ops with [] => True | o :: rest => legal m o /\ forall v m', spec_step check_name m o v m' -> legal_run m' rest end.
Inductive spec_run : pmap -> list op -> list obs -> pmap -> Prop :=
| R_end : forall m, spec_run m [] [] m
| R_step : forall m o v m1 ops vs m', spec_step check_name m o v m1 -> spec_run m1 ops vs m' -> spec_run m (o :: ops) (v :: vs) m'.

Lemma same_refl : forall m, same_map m m.
Proof. intros m x. auto. Qed.

(** ** path() *)
Lemma path_loop_ok : forall p s ch L i fuel acc, Inv none s ch L -> walk (nmof s) ch 0 p = Some i -> ~ In ROOT_NAME p -> (length p < fuel)%nat -> path_loop fuel s i acc = Ok (p ++ acc).
Proof.
  induction p as [|n p IH] using rev_ind; intros s ch L i fuel acc V W NR F; (destruct fuel as [|fuel]; [cbn in F; lia|]); cbn [path_loop].
  - cbn in W. injection W as <-. rewrite (v_n0 _ _ _ _ _ _ V), zlist_eqb_refl. auto.
  - apply (proj1 (walk_snoc _ _ _ _ _ _ (inv_distinct _ _ _ _ _ _ V))) in W as (b & Wb & Hb & En). rewrite in_app_iff in NR. cbn in NR.
    destruct (zlist_eqb (d_name (n_st s i)) ROOT_NAME) eqn:Z; [apply zlist_eqb_spec in Z; exfalso; apply NR; right; left; rewrite <- En; auto|].
    destruct (v_sub _ _ _ _ _ _ V _ _ Hb) as (_ & _ & -> & _). change (d_name (n_st s i)) with (nmof s i). rewrite En. rewrite app_length in F. cbn in F.
    erewrite IH; [|exact V|exact Wb|tauto|lia]. rewrite <- app_assoc. auto.
Qed.
Lemma live_length : forall s ch L, Inv none s ch L -> (length L <= Z.to_nat (maxn per s))%nat.
Proof. intros s ch L V. pose proof (range_length L (maxn per s) (v_nodup _ _ _ _ _ _ V) (v_range _ _ _ _ _ _ V)) as H. unfold zlen in H. lia. Qed.
Lemma path_ok : forall p s ch L i, Inv none s ch L -> walk (nmof s) ch 0 p = Some i -> ~ In ROOT_NAME p -> path_of per s i = Ok (text_of p).
Proof.
  intros p s ch L i V W NR. unfold path_of. rewrite (path_loop_ok p s ch L i _ [] V W NR).
  - cbn. rewrite app_nil_r, join_text. auto.
  - pose proof (live_length _ _ _ V). assert (length p < length L)%nat; [|lia]. eapply (walk_length (nmof s) ch L p i); [apply (inv_distinct _ _ _ _ _ _ V)|apply (inv_one_parent _ _ _ _ _ _ V)|apply (inv_noroot _ _ _ _ _ _ V)|apply (v_root _ _ _ _ _ _ V)| |exact W].
    intros x j Hj. apply (v_sub _ _ _ _ _ _ V _ _ Hj).
Qed.

(** ** one call *)
Definition step_good (s : ns) (ch : Z -> list Z) (L : list Z) (o : op) (r : res obs) : Prop :=
  match r with
  | Done s' v => exists ch' L', Inv none s' ch' L' /\ spec_step check_name (view s ch) o v (view s' ch') /\ (grows o = true -> Bal s L -> Bal s' L')
  | Fail s' e => exists ch' L', Inv none s' ch' L' /\ spec_step check_name (view s ch) o (VErr e) (view s' ch') /\ (grows o = true -> Bal s L -> Bal s' L')
  | Broken e => grows o = false \/ ~ Bal s L
  end.
Lemma only_cache_bal : forall s s' L, only_cache s s' -> Bal s L -> Bal s' L.
Proof. intros s s' L O B. destruct (only_cache_nm _ _ O) as (_ & St & _). unfold Bal, dirat in *. rewrite St. auto. Qed.
Lemma NoDup_map_in : forall (f : Z -> list Z) l, (forall a b, In a l -> In b l -> f a = f b -> a = b) -> NoDup l -> NoDup (map f l).
Proof.
  intros f l. induction l as [|a l IH]; intros H N; cbn; [constructor|]. inversion N; subst. constructor; [|apply IH; auto; intros; apply H; cbn; auto].
  rewrite in_map_iff. intros (b & E & Hb). apply H in E; cbn; auto. subst. auto.
Qed.

Lemma step_ok : forall s ch L o, Inv none s ch L -> legal (view s ch) o -> step_good s ch L o (ns_step s o).
Proof.
  intros s ch L o V G. destruct o as [p|p|p|p k|p|src dst|p|p|p n]; cbn [ns_step legal] in *.
  - destruct (find_looks upper per cap p s ch L V G) as (s1 & V1 & O1 & _ & [[H1 ->]|(H1 & -> & _)]); cbn; exists ch, L; (split; [auto|split; [|intros _; apply only_cache_bal; auto]]).
    + apply S_find_err; auto. apply same_view; auto.
    + replace (walk (nmof s) ch 0 p) with (option_map fst (view s ch p)) by (unfold view; destruct (walk (nmof s) ch 0 p); auto). apply S_find; auto. apply same_view; auto.
  - unfold exists_. destruct (find_looks upper per cap p s ch L V G) as (s1 & V1 & O1 & _ & [[H1 ->]|(H1 & -> & _)]); cbn; exists ch, L; (split; [auto|split; [|intros _; apply only_cache_bal; auto]]).
    + apply S_exists_err; auto. apply same_view; auto.
    + replace (match walk (nmof s) ch 0 p with Some _ => true | None => false end) with (match view s ch p with Some _ => true | None => false end) by (unfold view; destruct (walk (nmof s) ch 0 p); auto). apply S_exists; auto. apply same_view; auto.
  - unfold listdir. destruct (find_looks upper per cap p s ch L V G) as (s1 & V1 & O1 & _ & [[H1 ->]|(H1 & -> & _)]); cbn [nbind].
    { exists ch, L. split; auto. split; [|intros _; apply only_cache_bal; auto]. apply S_list_err; auto. apply same_view; auto. }
    destruct (walk (nmof s) ch 0 p) as [i|] eqn:W; cbn [nbind].
    2:{ exists ch, L. split; auto. split; [|intros _; apply only_cache_bal; auto]. apply S_list_err; [|apply same_view; auto]. right; left. rewrite (proj2 (view_None s ch p) W) in H1. auto. }
    assert (Vp : view s ch p = Some (i, d_kind (n_st s i))) by (apply view_Some; auto). rewrite Vp in H1.
    assert (Hi : In i L) by (apply (view_live _ _ _ _ _ _ _ _ _ V Vp)). destruct (dirat s1 i) eqn:Di.
    + destruct (listdir_ok upper per cap none s1 ch L i V1 Hi Di) as (s2 & l & -> & Pl & V2 & O2 & _); [auto|]. cbn. exists ch, L. split; auto. pose proof (only_cache_trans _ _ _ O1 O2) as O12.
      split; [|intros _; apply only_cache_bal; auto]. eapply S_list; [exact H1| | |apply same_view; auto].
      * rewrite (only_cache_dir _ _ i O1) in Di. apply (inv_isdir s L i Hi Di).
      * rewrite (proj1 (only_cache_nm _ _ O1)). pose proof (inv_distinct _ _ _ _ _ _ V) as Dd. split.
        -- unfold dict_of. rewrite map_map. cbn. apply (NoDup_map_in (fun j => nmof s j)); [intros a b Ha Hb; apply (Dd i); eapply Permutation_in; eauto|]. eapply Permutation_NoDup; [symmetry; exact Pl|]. apply (inv_ch_nodup _ _ _ _ _ _ V).
        -- intros m j. unfold dict_of. rewrite in_map_iff. split.
           ++ intros (y & Q & Hy). injection Q as <- <-. exists (d_kind (n_st s y)). apply view_Some. split; auto. apply walk_snoc; auto. exists i. split; auto. split; auto. eapply Permutation_in; eauto.
           ++ intros (k & Q). apply view_Some in Q as [Q _]. apply (proj1 (walk_snoc _ _ _ _ _ _ Dd)) in Q as (b & Wb & Hb & Q). assert (b = i) by congruence. subst b. exists j. split; [congruence|]. eapply Permutation_in; [symmetry; exact Pl|]. auto.
    + unfold listdir_dict. unfold dirat in Di. rewrite Di. cbn. exists ch, L. split; auto. split; [|intros _; apply only_cache_bal; auto]. apply S_list_err; [|apply same_view; auto]. right; right. exists i. 
      replace 2 with (d_kind (n_st s i)); auto. rewrite <- (proj1 (proj2 (only_cache_nm _ _ O1))). eapply inv_notdir; eauto.
  - destruct G as (C & Hk & Hc). pose proof (create_ok upper per cap s ch L p k V C Hk Hc) as K.
    destruct (create_dir_entry _ _ _ _ _ _) as [s1 i|s1 e|e]; cbn.
    + destruct K as (ch' & L' & V' & K & B). exists ch', L'. split; auto. split; [apply S_create; auto|auto].
    + destruct K as (V' & K & St). exists ch, L. split; auto. split; [apply S_create; auto|]. intros _. unfold Bal, dirat. rewrite St. auto.
    + right. destruct K as (q & n & i & j & E & Vq & Dq & NR). intros B. apply NR. apply B; auto. apply (view_live _ _ _ _ _ _ _ _ _ V Vq).
  - destruct (remove_ok upper per cap none s ch L p V G) as [(s1 & -> & V1 & O1 & H)|(s1 & ch1 & i & k & -> & V1 & NB & Vp & Np & Ci & Cut & _)]; [tauto| |]; cbn.
    + exists ch, L. split; auto. split; [|discriminate]. apply S_remove_err; [|apply same_view; auto]. destruct H as [H|[[H1 H2]|[H|(i & H1 & H2 & H3)]]].
      * left. constructor. auto.
      * right; left. apply looks_Ok. auto.
      * tauto.
      * right; right; right. destruct (ch i) as [|j l] eqn:Ci; [tauto|]. exists (nmof s j), i. exists (j, d_kind (n_st s j)). split; auto. apply view_Some. split; auto. apply walk_snoc; [apply (inv_distinct _ _ _ _ _ _ V)|]. exists i. rewrite Ci. apply view_Some in H2. cbn. tauto.
    + exists ch1, (without L [i]). split; auto. split; [|discriminate]. apply (S_remove _ _ _ i k); [apply looks_Ok; auto|auto| |exact Cut]. intros n. apply view_None. apply view_Some in Vp as [Wp _]. rewrite walk_app, Wp. cbn. rewrite Ci. auto.
  - pose proof (move_ok upper per cap src dst s ch L V G) as K. destruct (move _ _ _ _ _ _) as [s1 i|s1 e|e]; cbn; [| |auto].
    + destruct K as (ch1 & V1 & K & _). exists ch1, L. split; auto. split; auto. discriminate.
    + destruct K as (V1 & K & _). exists ch, L. split; auto. split; auto. discriminate.
  - destruct G as [C Np]. destruct (rmtree_ok upper per cap s ch L p V C Np) as [(s1 & e & -> & V1 & O1 & H)|(s1 & ch1 & L1 & i & F & Gl & -> & V1 & NB & Vp & Cut & _)]; cbn.
    + exists ch, L. split; auto. split; [|discriminate]. destruct H as [[H ->]|[(H & H1 & ->)|(H & -> & i & H1)]].
      * apply S_rmtree_err; [left; constructor; auto|apply same_view; auto].
      * apply S_rmtree_none; [apply looks_Ok; auto|apply same_view; auto].
      * apply S_rmtree_err; [right; exists i; apply looks_Ok; auto|apply same_view; auto].
    + exists ch1, L1. split; auto. split; [|discriminate]. apply (S_rmtree _ _ _ i); [apply looks_Ok; auto|exact Cut].
  - destruct G as [C Hc]. pose proof (makedirs_ok upper per cap p s ch L V C Hc) as K. destruct (makedirs _ _ _ _ _) as [s1 o|s1 e|e]; cbn; [| |auto]; destruct K as (ch1 & L1 & V1 & K & B); exists ch1, L1; auto.
  - destruct G as (C & Hc & NR). pose proof C as C'. apply Forall_app in C' as [Cp Cn]. apply Forall_inv in Cn.
    destruct (find_looks upper per cap p s ch L V Cp) as (s1 & V1 & O1 & _ & [[H1 ->]|(H1 & -> & _)]); cbn [nbind].
    { exists ch, L. split; auto. split; [|intros _; apply only_cache_bal; auto]. apply S_touch_err; auto. apply same_view; auto. }
    destruct (walk (nmof s) ch 0 p) as [i|] eqn:W.
    2:{ exists ch, L. split; auto. split; [|intros _; apply only_cache_bal; auto]. rewrite (proj2 (view_None s ch p) W) in H1. apply S_touch_none; auto. apply same_view; auto. }
    assert (Vp : view s ch p = Some (i, d_kind (n_st s i))) by (apply view_Some; auto). rewrite Vp in H1.
    assert (Hi : In i L) by (apply (view_live _ _ _ _ _ _ _ _ _ V Vp)). unfold touch. destruct (dirat s1 i) eqn:Di.
    2:{ unfold listdir_dict. unfold dirat in Di. rewrite Di. cbn. exists ch, L. split; auto. split; [|intros _; apply only_cache_bal; auto]. apply S_touch_err; [|apply same_view; auto]. right. exists i.
        replace 2 with (d_kind (n_st s i)); auto. rewrite <- (proj1 (proj2 (only_cache_nm _ _ O1))). eapply inv_notdir; eauto. }
    destruct (listdir_ok upper per cap none s1 ch L i V1 Hi Di) as (s2 & l & -> & Pl & V2 & O2 & _); [auto|]. cbn [nbind]. pose proof (only_cache_trans _ _ _ O1 O2) as O12.
    pose proof (inv_distinct _ _ _ _ _ _ V) as Dd. destruct (only_cache_nm _ _ O12) as (Nm2 & St2 & _). pose proof (only_cache_view _ _ ch O12) as Vw2.
    assert (Sk : is_storage (d_kind (n_st s i))) by (rewrite (only_cache_dir _ _ i O1) in Di; apply (inv_isdir s L i Hi Di)).
    assert (Dl : distinct (nmof s) l) by (intros a b Ha Hb; apply (Dd i); eapply Permutation_in; eauto).
    rewrite (proj1 (only_cache_nm _ _ O1)).
    destruct (dget (dict_of (nmof s) l) n) as [j|] eqn:Dg; cbn [nbind].
    + apply dget_dict_inv in Dg as [Hj En]. exists ch, L. split; auto. split; [|intros _; apply only_cache_bal; auto].
      assert (Vj : view s ch (p ++ [n]) = Some (j, d_kind (n_st s j))). { apply view_Some. split; auto. apply walk_snoc; auto. exists i. split; auto. split; auto. eapply Permutation_in; eauto. }
      replace (Some j) with (Some (fst (j, d_kind (n_st s j)))) by auto. eapply S_touch_have; eauto. apply same_view; auto.
    + assert (Wn : view s ch (p ++ [n]) = None).
      { apply view_None. destruct (walk (nmof s) ch 0 (p ++ [n])) as [j|] eqn:Q; auto. exfalso. apply (proj1 (walk_snoc _ _ _ _ _ _ Dd)) in Q as (b & Wb & Hb & Q). assert (b = i) by congruence. subst b.
        rewrite <- Q, dget_dict_in in Dg; auto; [discriminate|]. eapply Permutation_in; [symmetry; exact Pl|auto]. }
      assert (W2 : walk (nmof s2) ch 0 p = Some i) by (rewrite Nm2; auto). rewrite (path_ok p s2 ch L i V2 W2 NR).
      assert (Et : text_of p ++ (if d_kind (n_st s2 i) =? ROOT then [] else [SL]) ++ n = text_of (p ++ [n])).
      { rewrite text_snoc. destruct p as [|m p].
        - cbn in W. injection W as <-. rewrite (v_k0 _ _ _ _ _ _ V2). reflexivity.
        - assert (N0 : i <> 0). { intros ->. assert (Q : [] = m :: p) by (apply (walk_inj (nmof s) ch 0 Dd (inv_one_parent _ _ _ _ _ _ V) (inv_noroot _ _ _ _ _ _ V) [] (m :: p) 0); auto). discriminate. }
          destruct (v_kind _ _ _ _ _ _ V2 i Hi N0) as [->| ->]; reflexivity. }
      rewrite Et. assert (Hc2 : case_ok upper (view s2 ch) (p ++ [n])) by (rewrite Vw2; auto).
      pose proof (create_ok upper per cap s2 ch L (p ++ [n]) STREAM V2 C (or_intror eq_refl) Hc2) as K. rewrite Vw2 in K.
      destruct (create_dir_entry _ _ _ _ _ _) as [s3 j|s3 e|e]; cbn.
      * destruct K as (ch' & L' & V' & K & B). exists ch', L'. split; auto. split; [eapply S_touch_new; eauto|]. intros _ Q. apply B. eapply only_cache_bal; eauto.
      * destruct K as (V' & K & St). exists ch, L. split; auto. split; [eapply S_touch_new; eauto|]. intros _. unfold Bal, dirat. rewrite St, St2. auto.
      * right. destruct K as (q & m & i' & j & E & Vq & Dq & Nr). intros B. apply Nr. rewrite St2. unfold dirat in Dq. rewrite St2 in Dq. apply B; auto. apply (view_live _ _ _ _ _ _ _ _ _ V Vq).
Qed.

(** ** any number of calls *)
Theorem run_ok : forall ops s ch L, Inv none s ch L -> legal_run (view s ch) ops ->
  match ns_run s ops with
  | (vs, Some s') => exists ch' L', Inv none s' ch' L' /\ spec_run (view s ch) ops vs (view s' ch')
  | (vs, None) => exists pre o post m', ops = pre ++ o :: post /\ spec_run (view s ch) pre vs m' /\ (Bal s L -> existsb (fun o => negb (grows o)) (pre ++ [o]) = true)
  end.
Proof.
  induction ops as [|o ops IH]; intros s ch L V G; cbn [ns_run]; [exists ch, L; split; auto; constructor|].
  destruct G as [G1 G2]. pose proof (step_ok s ch L o V G1) as K. destruct (ns_step s o) as [s1 v|s1 e|e]; cbn in K.
  - destruct K as (ch1 & L1 & V1 & K & B). specialize (IH s1 ch1 L1 V1 (G2 _ _ K)). destruct (ns_run s1 ops) as [vs [s'|]].
    + destruct IH as (ch' & L' & V' & R). exists ch', L'. split; auto. econstructor; eauto.
    + destruct IH as (pre & x & post & m' & -> & R & H). exists (o :: pre), x, post, m'. split; auto. split; [econstructor; eauto|]. intros Q. cbn. destruct (grows o); auto.
  - destruct K as (ch1 & L1 & V1 & K & B). specialize (IH s1 ch1 L1 V1 (G2 _ _ K)). destruct (ns_run s1 ops) as [vs [s'|]].
    + destruct IH as (ch' & L' & V' & R). exists ch', L'. split; auto. econstructor; eauto.
    + destruct IH as (pre & x & post & m' & -> & R & H). exists (o :: pre), x, post, m'. split; auto. split; [econstructor; eauto|]. intros Q. cbn. destruct (grows o); auto.
  - exists [], o, ops, (view s ch). split; auto. split; [constructor|]. intros Q. cbn. destruct K as [->|K]; auto.
Qed.
End Run.

(** ** a new file (cfb.py:1185-1237): only the root entry, one directory sector, nothing in the lists *)
Definition new_ns : ns := mkns (fun i => if i =? 0 then mkd ROOT_NAME ROOT true None None None else mkd [] 0 true None None None) (fun _ => None) [] 1 [] [].
Definition empty_map : pmap := fun p => match p with [] => Some (0, 5) | _ => None end.
Lemma new_inv : forall upper per, 0 < per -> Inv upper per (fun _ => False) new_ns (fun _ => []) [0].
Proof.
  intros upper per Hp. constructor; [cbn; auto|auto|auto| | |cbn; auto| | | | | | |auto|].
  - cbn. intros i [<-|[]] H. tauto.
  - intros i [<-|[]] _. exists Lf. split; [constructor; cbn; auto; try discriminate; constructor|]. split; [constructor|reflexivity].
  - intros i j [].
  - constructor; [intros []|constructor].
  - intros i [<-|[]]. change (maxn per new_ns) with (1 * per). lia.
  - constructor.
  - intros i [].
  - intros i d [].
  - cbn. lia.
Qed.
Lemma new_view : forall p, view new_ns (fun _ => []) p = empty_map p.
Proof. intros [|n p]; reflexivity. Qed.
Lemma new_bal : Bal new_ns [0].
Proof. intros i [<-|[]] _. cbn. constructor. Qed.

