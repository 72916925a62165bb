(** makedirs and move against the specification. *)
From Coq Require Import ZArith List Bool Lia Sorting.Permutation Sorting.Sorted.
Import ListNotations.
From Verif Require Import Base BaseFacts LRUModel RBModel RBTree RBOrder RBInsert RBPop RBSpec RBLink RBAny NsModel NsSpec NsPath NsInv NsFind NsChange NsSteps.
Open Scope Z_scope.
Notation length := List.length.

Section Move.
Variable upper : list Z -> list Z.
Variables (per : Z) (cap : nat).
Notation Inv := (Inv upper per).
Notation maxn := (maxn per).
Notation none := (fun _ : Z => False).

Lemma there_free : forall X s ch L p, Inv X s ch L -> view s ch p <> None -> ~ blocked (view s ch) p.
Proof.
  intros X s ch L p V H (q & n & r & i & -> & E). apply H. apply view_None. apply view_Some in E as [E1 E2]. rewrite walk_app, E1. cbn.
  rewrite (v_leaf _ _ _ _ _ _ V i); auto. intros [_ D]. unfold dirat in D. rewrite <- E2 in D. discriminate.
Qed.

(** ** makedirs *)
Definition cases_ok (m : pmap) (done items : path) : Prop := forall q n r x, items = q ++ n :: r -> m (done ++ q ++ [x]) <> None -> alike upper x n -> x = n.
Lemma makes_ok : forall items done s ch L, Inv none s ch L -> clean (done ++ items) -> view s ch done <> None -> cases_ok (view s ch) done items ->
  match makedirs_loop upper per cap s (flat_map (fun n => 47 :: n) done) items with
  | Done s' _ => exists ch' L', Inv none s' ch' L' /\ makes check_name (view s ch) done items (Ok tt) (view s' ch') /\ view s' ch' (done ++ items) <> None /\ (Bal s L -> Bal s' L')
  | Fail s' e => exists ch' L', Inv none s' ch' L' /\ makes check_name (view s ch) done items (Err e) (view s' ch') /\ (Bal s L -> Bal s' L')
  | Broken e => ~ Bal s L
  end.
Proof.
  induction items as [|x items IH]; intros done s ch L V C Hd Hc; cbn [makedirs_loop].
  - exists ch, L. split; auto. rewrite app_nil_r. split; [constructor; intros z; auto|auto].
  - assert (Er : flat_map (fun n => 47 :: n) done ++ SL :: x = text_of (done ++ [x])) by (rewrite text_snoc; auto). rewrite Er.
    assert (Ef : text_of (done ++ [x]) = flat_map (fun n => 47 :: n) (done ++ [x])) by (unfold text_of; destruct (done ++ [x]) eqn:Z; auto; destruct done; discriminate).
    assert (C1 : clean (done ++ [x])) by (unfold clean in *; rewrite Forall_app in *; destruct C as [C C']; split; auto; inversion C'; auto).
    assert (C2 : clean ((done ++ [x]) ++ items)) by (rewrite <- app_assoc; auto).
    unfold exists_. destruct (find_looks upper per cap (done ++ [x]) s ch L V C1) as (s1 & V1 & O1 & _ & [[H1 ->]|(H1 & -> & _)]); cbn [nbind].
    + exists ch, L. split; auto. split; [apply K_block; auto; apply same_view; auto|]. destruct (only_cache_nm _ _ O1) as (_ & St & _). unfold Bal, dirat. rewrite St. auto.
    + destruct (only_cache_nm _ _ O1) as (_ & St & _). pose proof (only_cache_view _ _ ch O1) as Vw.
      assert (B1 : Bal s L <-> Bal s1 L) by (unfold Bal, dirat; rewrite St; tauto).
      destruct (walk (nmof s) ch 0 (done ++ [x])) as [i|] eqn:W; cbn [nbind].
      * assert (Vx : view s ch (done ++ [x]) = Some (i, d_kind (n_st s i))) by (apply view_Some; auto).
        specialize (IH (done ++ [x]) s1 ch L V1 C2). rewrite Vw in IH. rewrite Ef.
        assert (Hc' : cases_ok (view s ch) (done ++ [x]) items). { intros q n r y Hi Hy. apply (Hc (x :: q) n r y); [rewrite Hi; auto|]. rewrite <- app_assoc in Hy. auto. }
        specialize (IH ltac:(congruence) Hc'). rewrite <- app_assoc in IH. cbn [app] in IH. rewrite Vx in H1.
        destruct (makedirs_loop _ _ _ _ _ _).
        -- destruct IH as (ch' & L' & I1 & I2 & I3 & I4). exists ch', L'. split; auto. split; [eapply K_have; eauto|]. tauto.
        -- destruct IH as (ch' & L' & I1 & I2 & I4). exists ch', L'. split; auto. split; [eapply K_have; eauto|]. tauto.
        -- tauto.
      * assert (Vx : view s ch (done ++ [x]) = None) by (apply view_None; auto). rewrite Vx in H1.
        assert (Co : case_ok upper (view s1 ch) (done ++ [x])). { intros q n y E Hy. apply app_inj_tail in E as [<- <-]. rewrite Vw in Hy. apply (Hc [] x items y); auto. }
        pose proof (create_ok upper per cap s1 ch L (done ++ [x]) STORAGE V1 C1 (or_introl eq_refl) Co) as K. rewrite Vw in K.
        destruct (create_dir_entry _ _ _ _ _ _) as [s2 i|s2 e|e]; cbn [nbind].
        -- destruct K as (ch2 & L2 & V2 & K & B2). specialize (IH (done ++ [x]) s2 ch2 L2 V2 C2). rewrite Ef.
           assert (Ad : added_at (view s ch) (done ++ [x]) i 1 (view s2 ch2)) by (inversion K; auto). destruct Ad as [Ad1 Ad2].
           assert (Hc' : cases_ok (view s2 ch2) (done ++ [x]) items).
           { intros q n r y Hi Hy. exfalso. apply Hy. rewrite Ad2. { apply view_None. apply walk_none_app; auto. } intros Z. apply (f_equal (@length _)) in Z. rewrite !app_length in Z. cbn in Z. lia. }
           specialize (IH ltac:(congruence) Hc'). rewrite <- app_assoc in IH. cbn [app] in IH.
           destruct (makedirs_loop _ _ _ _ _ _).
           ++ destruct IH as (ch' & L' & I1 & I2 & I3 & I4). exists ch', L'. split; auto. split; [eapply K_new; eauto|]. tauto.
           ++ destruct IH as (ch' & L' & I1 & I2 & I4). exists ch', L'. split; auto. split; [eapply K_new; eauto|]. tauto.
           ++ tauto.
        -- destruct K as (V2 & K & Sst). exists ch, L. split; auto. split; [eapply K_refuse; eauto|]. unfold Bal, dirat. rewrite Sst, St. auto.
        -- destruct K as (q & n & i & j & E & Vq & Dq & NR). rewrite St in NR. unfold dirat in Dq. rewrite St in Dq. intros Z. apply NR. apply Z; auto. apply (view_live _ _ _ _ _ _ _ _ _ V Vq).
Qed.

Lemma makedirs_ok : forall p s ch L, Inv none s ch L -> clean p -> cases_ok (view s ch) [] p ->
  match makedirs upper per cap s (text_of p) with
  | Done s' o => exists ch' L', Inv none s' ch' L' /\ spec_step check_name (view s ch) (OMakedirs p) (VId o) (view s' ch') /\ (Bal s L -> Bal s' L')
  | Fail s' e => exists ch' L', Inv none s' ch' L' /\ spec_step check_name (view s ch) (OMakedirs p) (VErr e) (view s' ch') /\ (Bal s L -> Bal s' L')
  | Broken e => ~ Bal s L
  end.
Proof.
  intros p s ch L V C Hc. unfold makedirs. rewrite starts_text. cbn [negb].
  assert (V0 : view s ch [] = Some (0, d_kind (n_st s 0))) by reflexivity.
  assert (Fin : forall s1 ch1 L1, Inv none s1 ch1 L1 -> makes check_name (view s ch) [] p (Ok tt) (view s1 ch1) -> view s1 ch1 p <> None -> (Bal s L -> Bal s1 L1) ->
    match find per cap s1 (text_of p) with
    | Done s' o => exists ch' L', Inv none s' ch' L' /\ spec_step check_name (view s ch) (OMakedirs p) (VId o) (view s' ch') /\ (Bal s L -> Bal s' L')
    | Fail s' e => exists ch' L', Inv none s' ch' L' /\ spec_step check_name (view s ch) (OMakedirs p) (VErr e) (view s' ch') /\ (Bal s L -> Bal s' L')
    | Broken e => ~ Bal s L
    end).
  { intros s1 ch1 L1 V1 M Hp B1. destruct (find_looks upper per cap p s1 ch1 L1 V1 C) as (s2 & V2 & O2 & _ & [[H2 ->]|(H2 & -> & _)]).
    - exfalso. inversion H2. apply (there_free _ _ _ _ _ V1 Hp). auto.
    - exists ch1, L1. split; auto. pose proof (only_cache_view _ _ ch1 O2) as Vw. destruct (only_cache_nm _ _ O2) as (_ & St & _).
      split; [|intros B; apply B1 in B; unfold Bal, dirat in *; rewrite St; auto]. destruct (walk (nmof s1) ch1 0 p) as [i|] eqn:W; [|exfalso; apply Hp; apply view_None; auto].
      replace (Some i) with (Some (fst (i, d_kind (n_st s1 i)))) by auto. eapply S_makedirs; [rewrite Vw; exact M|]. rewrite Vw. replace (Some (i, d_kind (n_st s1 i))) with (view s1 ch1 p) by (apply view_Some; auto). auto. }
  destruct p as [|n p].
  - change (split (strip (text_of []))) with ([[]] : path). cbn [makedirs_loop]. change ([] ++ SL :: []) with [SL]. unfold exists_, find. cbn.
    apply (Fin s ch L V); auto; [constructor; intros x; auto|rewrite V0; discriminate].
  - rewrite split_strip by (auto; discriminate). pose proof (makes_ok (n :: p) [] s ch L V C) as M. cbn [app] in M. specialize (M ltac:(rewrite V0; discriminate) Hc). change (flat_map (fun n => 47 :: n) []) with (@nil Z) in M.
    destruct (makedirs_loop _ _ _ _ _ _) as [s1 []|s1 e|e]; cbn [nbind].
    + destruct M as (ch1 & L1 & V1 & M & Hp & B). apply (Fin s1 ch1 L1); auto.
    + destruct M as (ch1 & L1 & V1 & M & B). exists ch1, L1. split; auto. split; auto. apply S_makedirs_err. auto.
    + auto.
Qed.

(** ** move *)
Definition target (src dst : path) : path := match dst with [] => [last src []] | _ => dst end.
Record move_legal (m : pmap) (src dst : path) : Prop := {
  ml_src : clean src; ml_dst : clean dst;
  ml_below : below src (target src dst) -> src = [] \/ target src dst = src;
  ml_name : check_name (last (target src dst) []) = Ok tt;
  ml_case : forall x, m (removelast (target src dst) ++ [x]) <> None -> alike upper x (last (target src dst) []) ->
    x = last (target src dst) [] \/ removelast (target src dst) ++ [x] = src;
  ml_depth : (length (target src dst) <= cap)%nat }.

Lemma snoc_parts : forall (p : path), p <> [] -> p = removelast p ++ [last p []].
Proof. intros. apply app_removelast_last. auto. Qed.
Lemma root_name_clean : clean_name ROOT_NAME.
Proof. split; [discriminate|]. cbn. intuition discriminate. Qed.

Lemma move_ok : forall src dst s ch L, Inv none s ch L -> move_legal (view s ch) src dst ->
  match move upper per cap s (text_of src) (text_of dst) with
  | Done s' i => exists ch', Inv none s' ch' L /\ spec_step check_name (view s ch) (OMove src dst) (VId (Some i)) (view s' ch') /\ n_free s' = n_free s /\ n_log s' = n_log s
  | Fail s' e => Inv none s' ch L /\ spec_step check_name (view s ch) (OMove src dst) (VErr e) (view s' ch) /\ only_cache s s'
  | Broken e => removelast src = removelast (target src dst) \/ exists i j, view s ch (removelast (target src dst)) = Some (i, j) /\ dirat s i = true /\ ~ NoRedRed (n_st s) (d_child (n_st s i)) false
  end.
Proof.
  intros src dst s ch L V [Cs Cd Mb Mn Mc Md]. pose proof (inv_distinct _ _ _ _ _ _ V) as Dd. pose proof (inv_one_parent _ _ _ _ _ _ V) as Oo. pose proof (inv_noroot _ _ _ _ _ _ V) as Nn.
  unfold move.
  destruct (find_looks upper per cap src s ch L V Cs) as (s1 & V1 & O1 & _ & [[H1 ->]|(H1 & -> & _)]); cbn [nbind].
  { split; auto. split; auto. apply S_move_src; auto. apply same_view; auto. }
  destruct (walk (nmof s) ch 0 src) as [i|] eqn:W.
  2:{ rewrite (proj2 (view_None s ch src) W) in H1. split; auto. split; auto. apply S_move_src; auto. apply same_view; auto. }
  assert (Vs : view s ch src = Some (i, d_kind (n_st s i))) by (apply view_Some; auto). rewrite Vs in H1.
  assert (Hi : In i L) by (eapply (inv_live _ _ _ _ _ _ V); [|exact W]; apply (v_root _ _ _ _ _ _ V)).
  destruct (only_cache_nm _ _ O1) as (Nm1 & St1 & Pa1 & Fr1 & Se1 & Lo1). pose proof (only_cache_view _ _ ch O1) as Vw1.
  set (d1 := match dst with [] => [nmof s i] | _ => dst end).
  assert (Ed : (if endswith_sl (text_of dst) then text_of dst ++ d_name (n_st s1 i) else text_of dst) = text_of d1).
  { rewrite ends_text by auto. unfold d1. destruct dst; auto. rewrite St1. cbn. rewrite app_nil_r. auto. }
  rewrite Ed.
  assert (Ti : src <> [] -> nmof s i = last src []).
  { intros Ns. rewrite (snoc_parts src Ns) in W. apply (proj1 (walk_snoc _ _ _ _ _ _ Dd)) in W as (b & _ & _ & E). auto. }
  assert (Td : src <> [] -> d1 = target src dst) by (intros Ns; unfold d1, target; destruct dst; auto; rewrite Ti; auto).
  assert (Cd1 : clean d1).
  { unfold d1. destruct dst as [|n dst]; auto. constructor; [|constructor]. destruct src as [|m src]; [|rewrite Ti by discriminate].
    - cbn in W. injection W as <-. unfold nmof. rewrite (v_n0 _ _ _ _ _ _ V). apply root_name_clean.
    - rewrite (snoc_parts (m :: src)) in Cs by discriminate. apply Forall_app in Cs as [_ Cs]. inversion Cs; auto. }
  assert (Nd1 : d1 <> []) by (unfold d1; destruct dst; discriminate).
  assert (Refuse : forall s' P, Inv none s' ch L -> only_cache s s' -> P -> (P -> src = [] \/ looks (view s ch) (target src dst) (Err ValueError) \/ (exists e', looks (view s ch) (target src dst) (Ok (Some e'))) \/ (looks (view s ch) (target src dst) (Ok None) /\ view s ch (removelast (target src dst)) = None)) ->
    Inv none s' ch L /\ spec_step check_name (view s ch) (OMove src dst) (VErr ValueError) (view s' ch) /\ only_cache s s').
  { intros s' P V' O' HP H. split; auto. split; auto. eapply S_move_dst; [exact H1|reflexivity|apply H; auto|apply same_view; auto]. }
  assert (Dec : src = [] \/ src <> []) by (destruct src; [left|right]; auto; discriminate).
  unfold exists_. destruct (find_looks upper per cap d1 s1 ch L V1 Cd1) as (s2 & V2 & O2 & _ & [[H2 ->]|(H2 & -> & Rk)]); cbn [nbind].
  { rewrite Vw1 in H2. apply (Refuse s2 True); auto; [eapply only_cache_trans; eauto|]. intros _. destruct Dec as [Ns|Ns]; auto. rewrite <- (Td Ns). auto. }
  pose proof (only_cache_trans _ _ _ O1 O2) as O12. rewrite Nm1, Vw1 in *. destruct (only_cache_nm _ _ O12) as (Nm2 & St2 & Pa2 & Fr2 & Se2 & Lo2). pose proof (only_cache_view _ _ ch O12) as Vw2.
  destruct (walk (nmof s) ch 0 d1) as [j|] eqn:Wd.
  { apply (Refuse s2 True); auto. intros _. destruct Dec as [Ns|Ns]; auto. rewrite <- (Td Ns). right; right; left. exists (j, d_kind (n_st s j)). replace (Some (j, d_kind (n_st s j))) with (view s ch d1) by (apply view_Some; auto). auto. }
  assert (Vd : view s ch d1 = None) by (apply view_None; auto). rewrite Vd in H2.
  rewrite !text_root by auto. destruct d1 as [|x d1'] eqn:D1; [tauto|]. rewrite <- D1 in *. clear x d1' D1. cbn [orb].
  destruct src as [|x src'] eqn:Es; [apply (Refuse s2 True); auto|]. rewrite <- Es in *. assert (Ns : src <> []) by (rewrite Es; discriminate). clear x src' Es Dec.
  rewrite split_strip by auto. specialize (Td Ns). specialize (Ti Ns). rewrite <- Td in *. set (q := removelast d1) in *. set (base := last d1 []) in *. cbv zeta. change (@last (list Z) d1 []) with base. change (@removelast (list Z) d1) with q. rewrite join_text.
  assert (E1 : d1 = q ++ [base]) by (apply snoc_parts; auto).
  assert (Cqb : clean q /\ clean_name base). { rewrite E1 in Cd1. apply Forall_app in Cd1 as [Q1 Q2]. split; auto. inversion Q2; auto. } destruct Cqb as [Cq Cb].
  destruct (find_looks upper per cap q s2 ch L V2 Cq) as (s3 & V3 & O3 & K3 & [[H3 _]|(H3 & -> & _)]).
  { exfalso. inversion H3. rewrite Vw2 in H. apply (proj1 (looks_Ok _ _ _)) in H2 as [H2 _]. rewrite E1 in H2. eapply not_blocked_prefix; eauto. }
  cbn [nbind]. pose proof (only_cache_trans _ _ _ O12 O3) as O123. rewrite Nm2 in *. destruct (only_cache_nm _ _ O123) as (Nm3 & St3 & Pa3 & Fr3 & Se3 & Lo3). pose proof (only_cache_view _ _ ch O123) as Vw3.
  destruct (walk (nmof s) ch 0 q) as [root|] eqn:Wq.
  2:{ apply (Refuse s3 True); auto. intros _. right; right; right. split; auto. apply view_None. auto. }
  assert (Hr : In root L) by (eapply (inv_live _ _ _ _ _ _ V); [|exact Wq]; apply (v_root _ _ _ _ _ _ V)).
  fold (dirat s3 root).
  assert (Dr : dirat s root = true).
  { unfold dirat. destruct (isdir (d_kind (n_st s root))) eqn:Z; auto. exfalso. apply (proj1 (looks_Ok _ _ _)) in H2 as [H2 _]. apply H2. exists q, base, [], root. split; auto. apply view_Some. split; auto. symmetry. eapply inv_notdir; eauto. }
  assert (Dr3 : dirat s3 root = true) by (unfold dirat in *; rewrite St3; auto). rewrite Dr3. cbn [negb].
  (* the destination's listing is still cached *)
  assert (Pres : cget (n_cache s3) root <> None).
  { assert (R2 : rank (n_cache s2) root 0) by (apply (Rk q base root); auto). apply (f_equal (@length _)) in E1. rewrite app_length in E1. cbn in E1. specialize (K3 _ _ R2 ltac:(cbn; lia)). rename K3 into K3R. clear R2. rename K3R into R2.
    apply rank_cget in R2 as (d & ->). discriminate. }
  (* where the entry is *)
  pose proof W as W0. rewrite (snoc_parts src Ns) in W0. apply (proj1 (walk_snoc _ _ _ _ _ _ Dd)) in W0 as (par & Wp & Hpar & En).
  assert (Zi : i <> 0) by (intros ->; eapply Nn; eauto).
  assert (NotBelow : ~ below src d1). { intros B. destruct (Mb B) as [Z|Z]; [tauto|]. rewrite Z in Wd. congruence. }
  assert (Nroot : forall r, walk (nmof s) ch i r <> Some root).
  { intros r Hr'. apply NotBelow. assert (q = src ++ r) by (eapply walk_inj; eauto; rewrite walk_app, W; auto). exists (r ++ [base]). rewrite E1, H, <- app_assoc. auto. }
  assert (Nir : i <> root) by (intros ->; apply (Nroot []); auto).
  destruct (detach_ok upper per none s3 ch L par i V3 Hpar) as (s4 & ch1 & -> & V4 & [F1 F2 F3 F4] & (A & B & A1 & A2) & A3 & Hl & Hrr & Hch & Pn4 & Po4 & Pr4 & Lk4); [auto|]. cbn [nbind].
  rewrite Mn. cbv zeta.
  assert (Nm4 : forall x, In x L -> d_name (n_st s4 x) = d_name (n_st s x) /\ d_kind (n_st s4 x) = d_kind (n_st s x)) by (intros x Hx; rewrite <- St3; apply F4; eapply live_pos; eauto).
  destruct (cut_view upper per none s ch L s4 ch1 par (removelast src) i A B V Wp A1 A2 A3 Nm4) as ((Cut1 & Cut2) & Cut3).
  rewrite Ti, <- (snoc_parts src Ns) in Cut1, Cut2.
  assert (Fl : forall x, ~ In i (ch1 x)). { intros x Hx. destruct (v_sub _ _ _ _ _ _ V4 _ _ Hx) as (_ & _ & Q & _). congruence. }
  set (e := n_st s4 i). set (s5 := with_st s4 (supd (n_st s4) i (mkd base (d_kind e) (d_red e) (d_left e) (d_right e) (d_child e)))).
  assert (V5 : Inv none s5 ch1 L) by (apply (rename_ok upper per none s4 ch1 L i base V4 Zi Fl)).
  assert (I5 : n_st s5 i = mkd base (d_kind e) (d_red e) (d_left e) (d_right e) (d_child e)) by (unfold s5; cbn; apply supd_same).
  assert (O5 : forall x, x <> i -> n_st s5 x = n_st s4 x) by (intros x Hx; unfold s5; cbn; apply supd_other; auto).
  assert (Nm5 : forall b x, In x (ch1 b) -> nmof s5 x = nmof s4 x) by (intros b x Hx; unfold nmof; rewrite O5; auto; intros ->; eapply Fl; eauto).
  assert (W5 : forall a r, walk (nmof s5) ch1 a r = walk (nmof s4) ch1 a r) by (intros a r; apply walk_ext; intros p b _ _; split; auto; intros j Hj; eapply Nm5; eauto).
  assert (NBq : ~ below src q). { intros (r & Er). apply NotBelow. exists (r ++ [base]). rewrite E1, Er, <- app_assoc. auto. }
  assert (W5q : walk (nmof s5) ch1 0 q = Some root).
  { rewrite W5. specialize (Cut2 q NBq). unfold view in Cut2. rewrite Wq in Cut2. destruct (walk (nmof s4) ch1 0 q) as [y|]; [|discriminate]. cbn in Cut2. injection Cut2 as -> _. auto. }
  assert (Sub : forall b x, In x (ch1 b) -> In x (ch b)).
  { intros b x Hx. destruct (Z.eq_dec b par) as [->|Nb]; [|rewrite A3 in Hx; auto]. rewrite A2 in Hx. rewrite A1. apply in_app_iff in Hx. apply in_app_iff. cbn. tauto. }
  assert (Ne : forall j, In j (ch1 root) -> name_eq upper (nmof s5 i) (nmof s5 j) = false).
  { intros j Hj. rewrite (Nm5 root j Hj). unfold nmof at 1. rewrite I5. cbn [d_name]. assert (Hj' : In j (ch root)) by auto. assert (Lj : In j L) by (apply (v_sub _ _ _ _ _ _ V) in Hj'; tauto).
    unfold nmof. rewrite (proj1 (Nm4 j Lj)). fold (nmof s j). destruct (name_eq upper base (nmof s j)) eqn:Z; auto. exfalso. apply name_eq_iff in Z as [Z1 Z2].
    assert (Wj : walk (nmof s) ch 0 (q ++ [nmof s j]) = Some j) by (apply walk_snoc; auto; exists root; auto).
    destruct (Mc (nmof s j)) as [Q|Q]; [intros Q; apply view_None in Q; congruence|split; auto| |].
    - rewrite Q, <- E1 in Wj. congruence.
    - rewrite Q in Wj. assert (i = j) by congruence. subst j. eapply Fl; eauto. }
  assert (L5 : d_left (n_st s5 i) = None) by (rewrite I5; auto). assert (R5 : d_right (n_st s5 i) = None) by (rewrite I5; auto).
  assert (D5 : dirat s5 root = true) by (unfold dirat; rewrite O5, (proj2 (Nm4 root Hr)); auto).
  destruct (attach_cases upper per s5 root i) as [(s6 & E6)|(e6 & E6)]; rewrite E6; cbn [nbind].
  2:{ destruct (Z.eq_dec par root) as [->|Npr]; [left; eapply walk_inj; eauto|]. right. exists root, (d_kind (n_st s root)). split; [apply view_Some; auto|]. split; auto. intros NR.
      destruct (inv_tree _ _ _ _ _ _ V root Hr Dr) as (t & T1 & T2 & T3). rewrite (h_child _ _ _ T1) in NR. apply (NR_tree _ _ _ (h_rep _ _ _ T1)) in NR as [NR1 NR2].
      assert (It : forall x, In x (ids t) -> x <> i /\ In x (ch root) /\ In x L /\ ~ In x (ch par)).
      { intros x Hx. rewrite T3 in Hx. split; [intros ->; apply Npr; eapply Oo; eauto|]. split; auto. split; [apply (v_sub _ _ _ _ _ _ V) in Hx; tauto|]. intros Z. apply Npr. eapply Oo; eauto. }
      destruct (attach_done upper per none s5 ch1 L root i t V5) as (s6 & Z); auto; [| |rewrite A3; auto|congruence].
      - destruct T1. constructor; auto; [rewrite O5, Hch by (auto; eapply live_pos; eauto); rewrite St3; auto|]. eapply rep_links; [exact h_rep|]. intros x Hx. destruct (It x Hx) as (I1 & I2 & I3 & I4). rewrite O5 by auto. rewrite <- St3. apply Lk4; auto. eapply live_pos; eauto.
      - eapply sorted_names; [|exact T2]. intros x Hx. destruct (It x Hx) as (I1 & I2 & I3 & I4). rewrite O5 by auto. apply Nm4. auto. }
  destruct (attach_ok upper per none s5 ch1 L root i s6 V5) as (ch2 & V6 & [G1 G2 G3 G4] & P6 & O6 & _ & _ & _ & Pr6); auto.
  { unfold nmof. rewrite I5. auto. }
  assert (Pc : cget (n_cache s6) root <> None) by (apply Pr6; apply (Pr4 root Pres)).
  destruct (cget (n_cache s6) root) as [d|] eqn:Cg; [|tauto].
  assert (Nm6 : nmof s6 i = base). { unfold nmof. rewrite (proj1 (G4 i (live_pos _ _ _ _ _ _ _ V Hi))), I5. auto. }
  destruct (v_cache _ _ _ _ _ _ V6 _ _ (cget_In _ _ _ Cg)) as [[]|(_ & D6 & l & Pl & ->)].
  assert (Il : In i l) by (eapply Permutation_in; [symmetry; exact Pl|]; eapply Permutation_in; [symmetry; exact P6|left; auto]).
  assert (Ds : dset (dict_of (nmof s6) l) base i = dict_of (nmof s6) l).
  { rewrite <- Nm6. apply dset_old; auto. intros a b Ha Hb. apply (inv_distinct _ _ _ _ _ _ V6 root); eapply Permutation_in; eauto. }
  rewrite Ds. set (s7 := with_cache s6 _).
  exists ch2. split; [|split; [|split; [cbn; rewrite G1; cbn; rewrite F1, Fr3; auto|cbn; rewrite G3; cbn; rewrite F3, Lo3; auto]]].
  - apply inv_recache; auto. intros x d Hx. apply In_cput in Hx as [[-> ->]|[_ Hx]]; auto. right. split; auto. split; auto. exists l. auto.
  - assert (Wv : view s7 ch2 = view s6 ch2) by reflexivity. rewrite Wv.
    eapply S_move with (d1 := d1) (i' := root) (k' := d_kind (n_st s root)); eauto.
    + fold q. apply view_Some. auto.
    + apply (inv_isdir s L root Hr Dr).
    + pose proof (inv_distinct _ _ _ _ _ _ V5) as Dd5. pose proof (inv_one_parent _ _ _ _ _ _ V5) as Oo5. pose proof (inv_noroot _ _ _ _ _ _ V5) as Nn5.
      assert (Nmk : forall b j, In j (ch1 b) -> nmof s6 j = nmof s5 j) by (intros b j Hj; apply G4; eapply kid_pos; [exact V5|exact Hj]).
      assert (Kn : forall x, In x L -> d_kind (n_st s6 x) = d_kind (n_st s x)).
      { intros x Hx. rewrite (proj2 (G4 x (live_pos _ _ _ _ _ _ _ V Hx))). destruct (Z.eq_dec x i) as [->|Nx]; [rewrite I5; cbn; apply Nm4; auto|rewrite O5 by auto; apply Nm4; auto]. }
      assert (Sm : forall m, m <> base -> List.find (fun j => zlist_eqb (nmof s6 j) m) (ch2 root) = List.find (fun j => zlist_eqb (nmof s5 j) m) (ch1 root)).
      { intros m Hm. rewrite (find_perm_new (nmof s6) (ch1 root) (ch2 root) i m); auto; [|apply (inv_distinct _ _ _ _ _ _ V6)|congruence]. apply find_ext_in. intros x Hx. rewrite (Nmk root x Hx). auto. }
      assert (Wr : walk (nmof s6) ch2 0 q = Some root) by (eapply (edit_at (nmof s5) (nmof s6) ch1 ch2 root q); eauto).
      assert (Wi : walk (nmof s6) ch2 0 d1 = Some i).
      { rewrite E1. apply walk_snoc; [apply (inv_distinct _ _ _ _ _ _ V6)|]. exists root. split; auto. split; auto. eapply Permutation_in; [symmetry; exact P6|left; auto]. }
      assert (Wsub : forall r, walk (nmof s6) ch2 i r = walk (nmof s) ch i r).
      { intros r. rewrite <- Cut3, <- W5. eapply (edit_away (nmof s5) (nmof s6) ch1 ch2 root); eauto. intros r0. rewrite W5, Cut3. apply Nroot. }
      assert (Woth : forall x, ~ below d1 x -> walk (nmof s6) ch2 0 x = walk (nmof s4) ch1 0 x).
      { intros x Hx. rewrite <- W5. eapply (edit_other (nmof s5) (nmof s6) ch1 ch2 root q base); eauto. rewrite <- E1. auto. }
      split; [|split].
      * intros r. unfold view. rewrite !walk_app, Wi, W, Wsub. destruct (walk (nmof s) ch i r) as [y|] eqn:Z; auto. cbn. f_equal. f_equal. apply Kn. eapply (inv_live _ _ _ _ _ _ V); [exact Hi|exact Z].
      * intros x Hx (r & ->). apply view_None. rewrite Woth by auto. apply view_None. apply Cut1.
      * intros x Hx Hx'. unfold view. rewrite Woth by auto. specialize (Cut2 x Hx'). unfold view in Cut2. rewrite <- Cut2. destruct (walk (nmof s4) ch1 0 x) as [y|] eqn:Z; auto. cbn. f_equal. f_equal.
        assert (In y L) by (eapply (inv_live _ _ _ _ _ _ V4); [|exact Z]; apply (v_root _ _ _ _ _ _ V)). rewrite Kn by auto. symmetry. apply Nm4. auto.
Qed.
End Move.
