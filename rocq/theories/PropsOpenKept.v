(** C67: only ids that the file uses are changed, and lookups by any other id are right. *)
From Verif Require Import Base BaseFacts TypesModel TimelineModel MetaModel MetaFacts MetaTables PropsMeta PropsBuiltin PropsMetaCopy PropsMetaMore OpenMetaModel OpenMetaFacts PropsOpenMeta PropsOpenRun PropsOpenCases.
From Coq Require Import ZArith List Bool String Lia.
Import ListNotations.
Open Scope Z_scope.

(** ** A class before and after *)
Section Kept.
Variable files : list Z.
Variable n0 : Z.

(** some properties have another id, in the stored set and in the dictionary by id *)
Definition related (c c' : cdef) : Prop :=
  exists g : pdef -> pdef, c_props c' = map (fun x => (fst x, g (snd x))) (c_props c) /\ c_bypid c' = map (fun x => (fst x, g (snd x))) (c_bypid c) /\
  forall p, In p (props c) -> g p = p \/ (32768 <= p_pid p /\ (In (p_pid p) files \/ p_pid p <= n0)).
Lemma related_refl : forall c, related c c.
Proof.
  intros c. exists (fun p => p). assert (E : forall l : list (Z * pdef), map (fun x => (fst x, snd x)) l = l) by (induction l as [|[k p] l IH]; cbn; congruence). rewrite !E. auto.
Qed.
Lemma related_trans : forall a b c, related a b -> related b c -> related a c.
Proof.
  intros a b c (g & A1 & A2 & A3) (h & B1 & B2 & B3). exists (fun p => h (g p)). rewrite B1, A1, B2, A2, !map_map. cbn [fst snd]. split; [reflexivity|]. split; [reflexivity|].
  intros p I. destruct (A3 p I) as [Q|Q]; [|auto]. rewrite Q. apply B3. unfold props in *. rewrite A1, map_map. cbn [snd]. apply in_map_iff in I as (x & Ex & I). apply in_map_iff. exists x. split; [rewrite Ex; exact Q|exact I].
Qed.
Definition heap_rel (m m' : meta) : Prop := m_cauid m' = m_cauid m /\ forall h c, nth_error (m_heap m) h = Some c -> exists c', nth_error (m_heap m') h = Some c' /\ related c c'.
Lemma heap_refl : forall m, heap_rel m m.
Proof. intros m. split; [reflexivity|]. intros h c H. exists c. split; [exact H|apply related_refl]. Qed.
Lemma heap_trans : forall a b c, heap_rel a b -> heap_rel b c -> heap_rel a c.
Proof.
  intros a b c [A1 A2] [B1 B2]. split; [congruence|]. intros h x H. destruct (A2 _ _ H) as (y & Y & Ry). destruct (B2 _ _ Y) as (z & Hz & Rz). exists z. split; [exact Hz|eapply related_trans; eauto].
Qed.
(** ids in use are the file's or were chosen since *)
Definition low (m : meta) : Prop := fst (m_pids m) <= n0 /\ forall x, In x (snd (m_pids m)) -> In x files \/ x <= n0.

Lemma renew_rel : forall m h p c m' r, low m -> nth_error (m_heap m) h = Some c -> In p (props c) -> NoDup (map p_auid (props c)) -> renew m h p = Ok (m', r) ->
  low m' /\ heap_rel m m' /\ exists c', nth_error (m_heap m') h = Some c' /\ NoDup (map p_auid (props c')) /\ forall q, In q (props c) -> p_auid q <> p_auid p -> In q (props c').
Proof.
  intros m h p c m' r [L1 L2] H I N E. unfold renew in E. destruct ((32768 <=? p_pid p) && existsb (Z.eqb (p_pid p)) (snd (m_pids m))) eqn:B.
  - destruct (next_free_pid (m_pids m)) as [[x st]|] eqn:F; [|discriminate]. cbn [bind fst snd] in E. rewrite H in E. injection E as <- <-.
    destruct (next_free_le _ _ _ F) as [F1 F2]. destruct (next_free_fresh _ _ _ F) as [_ F3].
    apply andb_prop in B as [B1 B2]. apply existsb_exists in B2 as (y & B2 & B3). apply Z.eqb_eq in B3 as <-.
    assert (U : nth_error (upd_nth (m_heap m) h (set_pid c (p_auid p) x)) h = Some (set_pid c (p_auid p) x)) by (eapply upd_same; exact H).
    split; [|split; [split; [reflexivity|]|]].
    + split; cbn [with_pids m_pids]; [lia|]. intros y Iy. unfold next_free_pid in F. destruct (m_pids m) as [nx us] eqn:Q. destruct (pid_loop _ _ _) as [z|]; [|discriminate]. cbn [bind] in F. injection F as -> <-. cbn [fst snd] in *.
      destruct Iy as [<-|Iy]; [right; lia|auto].
    + intros k d D. cbn [with_pids with_class m_heap]. destruct (Nat.eq_dec k h) as [->|NE].
      * assert (d = c) as -> by congruence. eexists. split; [exact U|]. exists (fun q => if p_auid q =? p_auid p then with_pid q x else q). split; [reflexivity|]. split; [reflexivity|].
        intros q Iq. destruct (Z.eqb_spec (p_auid q) (p_auid p)) as [Eq|NE]; [right|auto]. assert (q = p) as -> by (eapply NoDup_map_inj; eauto). split; [lia|]. apply L2. exact B2.
      * exists d. split; [rewrite upd_other; auto|apply related_refl].
    + eexists. split; [exact U|]. unfold props. rewrite set_pid_props. unfold swap_id. rewrite !map_map. cbn [snd]. split.
      * replace (map (fun x0 => p_auid (if p_auid (snd x0) =? p_auid p then with_pid (snd x0) x else snd x0)) (c_props c)) with (map p_auid (props c)); [exact N|].
        unfold props. rewrite map_map. apply map_ext. intros y. destruct (_ =? _); reflexivity.
      * intros q Iq NE. unfold props in Iq. apply in_map_iff in Iq as (y & <- & Iq). apply in_map_iff. exists y. split; [|exact Iq]. destruct (Z.eqb_spec (p_auid (snd y)) (p_auid p)); [congruence|reflexivity].
  - injection E as <- <-. split; [split; auto|]. split; [apply heap_refl|]. exists c. auto.
Qed.
Lemma each_rel : forall h f, renews h f -> forall l m m' c, low m -> nth_error (m_heap m) h = Some c -> NoDup (map p_auid (props c)) -> NoDup (map p_auid l) -> incl l (props c) ->
  each f l m = Ok m' -> low m' /\ heap_rel m m'.
Proof.
  intros h f R. induction l as [|p l IH]; intros m m' c L H N D I E; cbn [each] in E; [injection E as <-; split; [exact L|apply heap_refl]|].
  destruct (f m p) as [m1|] eqn:E1; [|discriminate]. cbn [bind] in E. apply R in E1 as (m2 & r & E2 & (T1 & _ & _ & T4 & (_ & T5 & _)) & _). cbn [map] in D. inversion D as [|? ? D1 D2]; subst.
  destruct (renew_rel m h p c m2 r L H (I p (or_introl eq_refl)) N E2) as (L2 & H2 & c' & C' & N' & K).
  assert (L1 : low m1) by (unfold low in *; rewrite T4; exact L2). assert (H1 : heap_rel m m1) by (destruct H2 as [A B]; split; [congruence|rewrite T1; exact B]).
  destruct (IH m1 m' c' L1) as [J1 J2]; auto; [rewrite T1; exact C'| |split; [exact J1|eapply heap_trans; eauto]].
  intros q Iq. apply K; [apply I; cbn; auto|]. intros Q. apply D1. rewrite <- Q. apply in_map. exact Iq.
Qed.
Lemma add_type_rel : forall m x m', found_ok m -> low m -> add_type m x = Ok m' -> low m' /\ heap_rel m m'.
Proof.
  intros m x m' (W & K) L E. unfold add_type in E. destruct (_ || _); [injection E as <-; split; [exact L|apply heap_refl]|]. destruct (nth_error (m_theap m) (snd x)) as [t|]; [|discriminate].
  destruct (zget (m_cauid m) (fst (kind_class (t_kind t)))) as [hc|] eqn:Hz; [|discriminate]. destruct (nth_error (m_heap m) hc) as [c|] eqn:C; [|discriminate].
  destruct (each _ _ m) as [m1|] eqn:E1; [|discriminate]. cbn [bind] in E. injection E as <-.
  destruct (keys_props c) as [N _]; [apply (K (fst (kind_class (t_kind t)))); unfold class_of; rewrite Hz; exact C|].
  destruct (each_rel hc _ (renews_type hc (snd x)) (props c) m m1 c L C N N (incl_refl _) E1) as [J1 J2]. split; [exact J1|exact J2].
Qed.
Lemma add_class_rel : forall m x m', found_ok m -> zget (m_cauid m) (fst x) = Some (snd x) -> low m -> add_class m x = Ok m' -> low m' /\ heap_rel m m'.
Proof.
  intros m x m' (W & K) Hz L E. unfold add_class in E. destruct (_ || _); [injection E as <-; split; [exact L|apply heap_refl]|]. destruct (nth_error (m_heap m) (snd x)) as [c|] eqn:C; [|discriminate].
  destruct (each _ _ m) as [m1|] eqn:E1; [|discriminate]. cbn [bind] in E. injection E as <-.
  destruct (keys_props c) as [N _]; [apply (K (fst x)); unfold class_of; rewrite Hz; exact C|].
  destruct (each_rel (snd x) _ (renews_class (snd x)) (props c) m m1 c L C N N (incl_refl _) E1) as [J1 J2]. split; [exact J1|exact J2].
Qed.
Lemma types_rel : forall (orig : Z -> Z -> Z -> Prop), (forall a k a' k' pid, orig a k pid -> orig a' k' pid -> a = a' /\ k = k') ->
  forall l m m', merge_inv n0 orig m -> low m -> each add_type l m = Ok m' -> low m' /\ heap_rel m m' /\ merge_inv n0 orig m'.
Proof.
  intros orig O. induction l as [|x l IH]; intros m m' I L E; cbn [each] in E; [injection E as <-; split; [exact L|split; [apply heap_refl|exact I]]|].
  destruct (add_type m x) as [m1|] eqn:E1; [|discriminate]. cbn [bind] in E. destruct (add_type_inv n0 orig m x m1 O I E1) as (I1 & _). destruct (add_type_rel m x m1 (proj1 I) L E1) as [L1 H1].
  destruct (IH m1 m' I1 L1 E) as (A & B & C). split; [exact A|]. split; [eapply heap_trans; eauto|exact C].
Qed.
Lemma classes_rel : forall (orig : Z -> Z -> Z -> Prop), (forall a k a' k' pid, orig a k pid -> orig a' k' pid -> a = a' /\ k = k') ->
  forall l m m', merge_inv n0 orig m -> (forall x, In x l -> zget (m_cauid m) (fst x) = Some (snd x)) -> low m -> each add_class l m = Ok m' -> low m' /\ heap_rel m m'.
Proof.
  intros orig O. induction l as [|x l IH]; intros m m' I Hz L E; cbn [each] in E; [injection E as <-; split; [exact L|apply heap_refl]|].
  destruct (add_class m x) as [m1|] eqn:E1; [|discriminate]. cbn [bind] in E. destruct (add_class_inv n0 orig m x m1 O I (Hz x (or_introl eq_refl)) E1) as (I1 & _). destruct (add_class_rel m x m1 (proj1 I) (Hz x (or_introl eq_refl)) L E1) as [L1 H1].
  destruct (IH m1 m' I1) as (A & B); auto; [intros y Iy; destruct H1 as [-> _]; apply Hz; cbn; auto|]. split; [exact A|]. eapply heap_trans; eauto.
Qed.
End Kept.

(** ** C67 *)
Lemma read_rel : forall m fc ft m', start m -> sound_file fc ft -> read_dictionary true m fc ft = Ok m' -> heap_rel (flat_map dynamic_ids fc) (fst (m_pids m)) (load m fc ft) m'.
Proof.
  intros m fc ft m' S F E. pose proof S as (W & _). pose proof (load_merge_inv m fc ft S F) as I0. pose proof (orig_fun m fc S) as O. destruct (load_ok m fc ft W) as (_ & _ & _ & L2 & L3 & _). destruct (load_keys_In m fc ft S) as [KC _].
  unfold read_dictionary in E. destruct (each add_type _ (load m fc ft)) as [m1|] eqn:E1; [|discriminate]. cbn [bind] in E.
  assert (L : low (flat_map dynamic_ids fc) (fst (m_pids m)) (load m fc ft)) by (split; [rewrite L2; lia|]; intros x H; left; apply L3 in H as (c & A & B); apply in_flat_map; exists c; auto).
  destruct (types_rel _ _ _ O _ _ _ I0 L E1) as (A & B & C). pose proof (proj1 B) as Bc.
  destruct (classes_rel (flat_map dynamic_ids fc) _ _ O _ _ _ C (fun x Ix => eq_trans (f_equal (fun d => zget d (fst x)) Bc) (KC x (eq_ind _ (fun d => In x d) Ix _ Bc))) A E) as [_ D]. eapply heap_trans; eauto.
Qed.

(** A built-in property keeps its id unless the file uses it. *)
Theorem C67_kept : forall m fc ft m', base_model = Ok m -> sound_file fc ft -> read_dictionary true m fc ft = Ok m' ->
  forall a c p, class_of m a = Some c -> ~ In a (map c_auid fc) -> In p (props c) -> (forall d q, In d fc -> In q (props d) -> p_pid q <> p_pid p) ->
  exists c', class_of m' a = Some c' /\ In p (props c').
Proof.
  intros m fc ft m' B F E a c p X N I U. pose proof (base_start m B) as S. clear B. destruct (read_rel m fc ft m' S F E) as [H1 H2]. pose proof S as (W & _ & _ & _ & Hi & _). destruct (load_ok m fc ft W) as (_ & _ & _ & _ & _ & _ & _ & _ & _ & L9 & _).
  pose proof (L9 a N) as Y. rewrite X in Y. unfold class_of in Y. destruct (zget (m_cauid (load m fc ft)) a) as [h|] eqn:Hz; [|discriminate]. destruct (H2 _ _ Y) as (c' & C' & g & G1 & G2 & G3).
  exists c'. split; [unfold class_of; rewrite H1, Hz; exact C'|]. destruct (G3 p I) as [Q|[Q1 [Q2|Q2]]].
  - unfold props. rewrite G1, map_map. cbn [snd]. unfold props in I. apply in_map_iff in I as (x & Ex & I). apply in_map_iff. exists x. split; [rewrite Ex; exact Q|exact I].
  - exfalso. apply in_flat_map in Q2 as (d & Id & Q2). unfold dynamic_ids in Q2. apply filter_In in Q2 as [Q2 _]. apply in_map_iff in Q2 as (q & Eq & Iq). exact (U d q Id Iq Eq).
  - pose proof (Hi a c p X I Q1). lia.
Qed.
Print Assumptions C67_kept.

(** Looking a property up in any class by an id that is static or that the file does not use gives the
    property with that id. *)
Theorem C67_by_other_id : forall m fc ft m', base_model = Ok m -> sound_file fc ft -> read_dictionary true m fc ft = Ok m' ->
  forall a c l pid, class_of m' a = Some c -> chain m' c l -> NoDup (map p_pid (flat_map props l)) ->
  pid < 32768 \/ (forall d q, In d fc -> In q (props d) -> p_pid q <> pid) ->
  exists r, propertydef m' c pid = Ok r /\ forall p, r = Some p <-> In p (flat_map props l) /\ p_pid p = pid.
Proof.
  intros m fc ft m' B F E a c l pid X Ch N Hp. pose proof (base_start m B) as S. pose proof (reach_built_in m (or_introl B)) as Rb. clear B. destruct (read_rel m fc ft m' S F E) as [H1 H2].
  destruct (read_facts m fc ft m' S F E) as (((W' & _) & _) & _). pose proof S as (W & _ & _ & _ & Hi & _).
  assert (Xc : class_of m' (c_auid c) = Some c).
  { unfold class_of in *. destruct (zget (m_cauid m') a) as [h|] eqn:Q; [|discriminate]. pose proof W' as (_ & W2 & _). destruct (W2 _ _ Q) as (d & D1 & D2). assert (d = c) as -> by congruence. rewrite D2, Q. exact D1. }
  assert (K : forall x p, In x l -> zget (c_bypid x) pid = Some p -> In p (props x) /\ p_pid p = pid).
  { intros x p Ix Hz. pose proof (chain_found m' c l W' Xc Ch x Ix) as Y. unfold class_of in Y. rewrite H1 in Y. destruct (zget (m_cauid (load m fc ft)) (c_auid x)) as [h|] eqn:Q; [|discriminate].
    pose proof (proj1 (load_ok m fc ft W)) as (_ & W2 & _). destruct (W2 _ _ Q) as (x0 & X0 & Xa). destruct (H2 _ _ X0) as (x' & X' & g & G1 & G2 & G3). assert (x' = x) as -> by congruence.
    assert (B0 : forall k q, zget (c_bypid x0) k = Some q -> p_pid q = k /\ In q (props x0)).
    { assert (Cx : class_of (load m fc ft) (c_auid x) = Some x0) by (unfold class_of; rewrite Q; exact X0). destruct (load_class_cases m fc ft _ _ W F Cx) as [(d & Id & _ & ->)|[_ Cm]]; [apply read_by_id|].
      pose proof (stored_all _ Rb) as ((P & _) & _). destruct P as (P & _). unfold class_of in Cm. destruct (zget (m_cauid m) (c_auid x)); [|discriminate]. apply P in Cm as (_ & _ & Cm & _). exact Cm. }
    rewrite G2 in Hz. assert (Zm : forall d, zget (map (fun y : Z * pdef => (fst y, g (snd y))) d) pid = option_map g (zget d pid)) by (induction d as [|[k v] d IH]; cbn; [reflexivity|destruct (_ =? _); auto]).
    rewrite Zm in Hz. destruct (zget (c_bypid x0) pid) as [q|] eqn:Hq; [|discriminate]. cbn in Hz. injection Hz as <-. destruct (B0 _ _ Hq) as [Q1 Q2].
    split; [unfold props; rewrite G1, map_map; cbn [snd]; unfold props in Q2; apply in_map_iff in Q2 as (y & <- & Q2); apply in_map_iff; exists y; auto|].
    destruct (G3 q Q2) as [Q3|[Q3 Q4]]; [rewrite Q3; exact Q1|exfalso]. rewrite Q1 in Q3, Q4. destruct Hp as [Hp|Hp]; [lia|]. destruct Q4 as [Q4|Q4].
    - apply in_flat_map in Q4 as (d & Id & Q4). unfold dynamic_ids in Q4. apply filter_In in Q4 as [Q4 _]. apply in_map_iff in Q4 as (y & Ey & Iy). exact (Hp d y Id Iy Ey).
    - assert (Cx : class_of (load m fc ft) (c_auid x) = Some x0) by (unfold class_of; rewrite Q; exact X0). destruct (load_class_cases m fc ft _ _ W F Cx) as [(d & Id & _ & ->)|[_ Cm]].
      + exact (Hp d q Id Q2 Q1).
      + pose proof (Hi _ _ _ Cm Q2). lia. }
  unfold propertydef, get_propertydef_from_pid, all_propertydefs. rewrite (relatives_chain _ _ _ Ch). cbn [bind].
  assert (U : forall p q, In p (flat_map props l) -> In q (flat_map props l) -> p_pid p = p_pid q -> p = q) by (intros; eapply NoDup_map_inj; eauto).
  destruct (first_in c_bypid pid l) as [q|] eqn:Q.
  - eexists. split; [reflexivity|]. apply first_in_some in Q as (x & I & Q). destruct (K x q I Q) as [Q1 Q2]. assert (Iq : In q (flat_map props l)) by (apply in_flat_map; eauto).
    intros p. split; [intros Y; injection Y as <-; auto|]. intros [Ip Ep]. f_equal. apply U; auto. congruence.
  - eexists. split; [reflexivity|]. intros p. split; [intros Y; apply find_some in Y as [Y1 Y2]; split; [auto|lia]|].
    intros [Ip Ep]. destruct (find (fun q => p_pid q =? pid) (flat_map props l)) as [q|] eqn:Fq; [apply find_some in Fq as [F1 F2]; f_equal; apply U; auto; lia|].
    exfalso. apply (find_none _ _ Fq) in Ip. lia.
Qed.
Print Assumptions C67_by_other_id.
