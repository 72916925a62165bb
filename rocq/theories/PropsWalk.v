(** C70: walking from a source clip yields the chain of what it refers to. *)
From Verif Require Import Base BaseFacts TimelineModel WalkModel.
From Coq Require Import ZArith List Bool Lia.
Import ListNotations.
Open Scope Z_scope.

(** ** Specification *)
Definition sum (cs : list (bool * Z * seg)) : Z := fold_right (fun c n => snd (fst c) + n) 0 cs.
(** the component of a sequence at a time: it starts before and ends not before; times before the start belong to the first
    component and those after the end to the last *)
Definition at_time (cs : list (bool * Z * seg)) (t : Z) (x : seg) : Prop :=
  exists l tr n r, cs = l ++ (tr, n, x) :: r /\ (l = [] \/ sum l < t) /\ (r = [] \/ t <= sum l + n).
(** the segment of the first slot with the id, in the mob *)
Definition in_slot (C : content) (m s : Z) (g : seg) : Prop :=
  m <> 0 /\ exists slots l r, In (m, slots) C /\ slots = l ++ (s, g) :: r /\ ~ In s (map fst l).
Definition is_clip (g : seg) : Prop := exists m s t, g = GClip m s t.
Definition is_seq (g : seg) : Prop := exists cs, g = GSeq cs.
Definition is_other (g : seg) : Prop := exists n, g = GOther n.
(** what a clip refers to *)
Inductive leads (C : content) : seg -> seg -> Prop :=
  | leads_slot : forall m s t g, in_slot C m s g -> ~ is_seq g -> ~ is_other g -> leads C (GClip (Some m) (Some s) t) g
  | leads_seq : forall m s t cs g, in_slot C m s (GSeq cs) -> at_time cs t g -> is_clip g -> leads C (GClip (Some m) (Some s) (Some t)) g.
(** a clip that refers to nothing in the file *)
Inductive stops (C : content) : seg -> Prop :=
  | stops_mob : forall s t, stops C (GClip None s t)
  | stops_null : forall s t, stops C (GClip (Some 0) s t)
  | stops_missing : forall m s t, ~ In m (map fst C) -> stops C (GClip (Some m) s t)
  | stops_slot : forall m t, stops C (GClip m None t).
(** a clip that cannot be followed *)
Inductive fault (C : content) : seg -> err -> Prop :=
  | fault_slot : forall m slots s t, m <> 0 -> In (m, slots) C -> ~ In s (map fst slots) -> fault C (GClip (Some m) (Some s) t) IndexError
  | fault_other : forall m s t g, in_slot C m s g -> is_other g -> fault C (GClip (Some m) (Some s) t) NotImplemented
  | fault_start : forall m s cs, in_slot C m s (GSeq cs) -> fault C (GClip (Some m) (Some s) None) TypeError
  | fault_first : forall m s t, in_slot C m s (GSeq []) -> t <= 0 -> fault C (GClip (Some m) (Some s) (Some t)) IndexError
  | fault_empty : forall m s t, in_slot C m s (GSeq []) -> 0 < t -> fault C (GClip (Some m) (Some s) (Some t)) TypeError
  | fault_kind : forall m s t cs g, in_slot C m s (GSeq cs) -> at_time cs t g -> ~ is_clip g -> fault C (GClip (Some m) (Some s) (Some t)) NotImplemented.
(** [path C c l d]: [l] is the chain of clips after [c], up to [d] *)
Inductive path (C : content) : seg -> list seg -> seg -> Prop :=
  | path_end : forall c, path C c [] c
  | path_step : forall c x l d, leads C c x -> is_clip x -> path C x l d -> path C c (x :: l) d.
(** the whole chain: up to a clip that stops, or something that is no clip *)
Definition chain (C : content) (c : seg) (l : list seg) : Prop :=
  (exists d, path C c l d /\ stops C d) \/ exists p d g, l = p ++ [g] /\ path C c p d /\ leads C d g /\ ~ is_clip g.
(** each mob is there once; sequences have no transitions and no negative lengths *)
Definition plain (cs : list (bool * Z * seg)) : Prop := Forall (fun c => fst (fst c) = false /\ 0 <= snd (fst c)) cs.
Definition plain_content (C : content) : Prop := NoDup (map fst C) /\ forall m slots s cs, In (m, slots) C -> In (s, GSeq cs) slots -> plain cs.

(** ** Facts *)
Lemma sum_app : forall a b, sum (a ++ b) = sum a + sum b.
Proof. induction a as [|c a IH]; intros b; cbn; auto. fold (sum (a ++ b)). fold (sum a). rewrite IH. lia. Qed.
Lemma sum_nonneg : forall a, plain a -> 0 <= sum a.
Proof. induction a as [|c a IH]; intros P; cbn; [lia|]. fold (sum a). inversion P as [|? ? [_ Q] P']; subst. specialize (IH P'). lia. Qed.
Lemma index_loop_at : forall t cs i p, plain cs ->
  (index_loop t (Some i) (positions_from (i + 1) p (map fst cs)) = Some i /\ (cs = [] \/ t <= p)) \/
  exists l y r, cs = l ++ y :: r /\ p + sum l < t /\ (r = [] \/ t <= p + sum l + snd (fst y)) /\
    index_loop t (Some i) (positions_from (i + 1) p (map fst cs)) = Some (i + 1 + Z.of_nat (List.length l)).
Proof.
  intros t cs. induction cs as [|[[tr n] x] cs IH]; intros i p P; [left; auto|]. inversion P as [|? ? [Q1 Q2] P']; subst. cbn in Q1, Q2. subst tr. cbn [map fst positions_from index_loop andb].
  destruct (Z.leb_spec t p) as [L|L]; [left; auto|right]. destruct (IH (i + 1) (p + n) P') as [[E H]|(l & y & r & -> & A & B & E)].
  - exists [], (false, n, x), cs. split; auto. split; [cbn; lia|]. split; [cbn; destruct H; [auto|right; lia]|]. rewrite E. cbn. f_equal. lia.
  - exists ((false, n, x) :: l), y, r. split; auto. cbn [sum fold_right fst snd]. fold (sum l). split; [lia|]. split; [destruct B; [auto|right; lia]|]. rewrite E. f_equal. cbn [List.length]. lia.
Qed.
Lemma at_time_unique : forall cs t x y, plain cs -> at_time cs t x -> at_time cs t y -> x = y.
Proof.
  intros cs t x y P (l & tr & n & r & E & A & B) (l' & tr' & n' & r' & E' & A' & B'). 
  assert (G : forall l l' (c c' : bool * Z * seg) r r', plain (l ++ c :: r) -> l ++ c :: r = l' ++ c' :: r' -> (List.length l < List.length l')%nat -> r <> [] /\ l' <> [] /\ sum l + snd (fst c) <= sum l').
  { clear. induction l as [|h l IH]; intros l' c c' r r' P E L; (destruct l' as [|h' l']; [cbn in L; lia|]); cbn in E; injection E as <- E.
    - split; [intros ->; destruct l'; discriminate|]. split; [discriminate|]. cbn. assert (Q : plain l') by (unfold plain in *; apply Forall_inv_tail in P; cbn in P; rewrite E in P; apply Forall_app in P; tauto). apply sum_nonneg in Q. fold (sum l'). lia.
    - destruct (IH l' c c' r r') as (G1 & G2 & G3); auto; [eapply Forall_inv_tail; exact P|cbn in L; lia|]. split; auto. split; [discriminate|]. cbn. fold (sum l). fold (sum l'). lia. }
  destruct (Nat.lt_trichotomy (List.length l) (List.length l')) as [L|[L|L]].
  - destruct (G l l' (tr, n, x) (tr', n', y) r r') as (G1 & G2 & G3); [congruence|congruence|auto|]. cbn in G3. destruct A'; [contradiction|]. destruct B; [contradiction|]. lia.
  - rewrite E in E'. assert (X : l = l' /\ (tr, n, x) :: r = (tr', n', y) :: r'). { clear - E' L. revert l' E' L. induction l as [|h l IH]; intros [|h' l'] E L; try discriminate; auto. cbn in E. injection E as -> E. destruct (IH l' E) as [-> ->]; auto. } destruct X as [_ X]. congruence.
  - destruct (G l' l (tr', n', y) (tr, n, x) r' r) as (G1 & G2 & G3); [congruence|congruence|auto|]. cbn in G3. destruct A; [contradiction|]. destruct B'; [contradiction|]. lia.
Qed.
Lemma component_at_spec : forall cs t, plain cs ->
  match component_at cs (Some t) with
  | Ok x => at_time cs t x
  | Err e => cs = [] /\ ((t <= 0 /\ e = IndexError) \/ (0 < t /\ e = TypeError))
  end.
Proof.
  intros cs t P. unfold component_at, index_at_time. destruct (Z.leb_spec t 0) as [L|L].
  - destruct cs as [|[[tr n] x] cs]; [cbn; auto|]. cbn. exists [], tr, n, cs. inversion P as [|? ? [_ Q] P']; subst. cbn in Q. split; auto. split; auto. right. cbn. lia.
  - destruct cs as [|[[tr n] x] cs]; [cbn; auto|]. inversion P as [|? ? [Q1 Q2] P']; subst. cbn in Q1, Q2. subst tr. unfold positions. cbn [map fst positions_from index_loop andb].
    destruct (index_loop_at t cs 0 (0 + n) P') as [[E H]|(l & y & r & -> & A & B & E)]; rewrite E.
    + cbn. exists [], false, n, cs. split; auto.
    + replace (Z.to_nat (0 + 1 + Z.of_nat (List.length l))) with (S (List.length l)) by lia. cbn [nth_error]. rewrite nth_error_app2 by lia. rewrite Nat.sub_diag. cbn [nth_error]. destruct y as [[tr m] y]. cbn [snd fst] in *.
      exists ((false, n, x) :: l), tr, m, r. split; auto.
Qed.
Lemma slot_at_spec : forall (slots : list (Z * seg)) s, (exists g l r, slot_at slots s = Ok g /\ slots = l ++ (s, g) :: r /\ ~ In s (map fst l)) \/ (slot_at slots s = Err IndexError /\ ~ In s (map fst slots)).
Proof.
  induction slots as [|[i g] slots IH]; intros s; [right; auto|]. cbn [slot_at]. destruct (Z.eqb_spec i s) as [->|N].
  - left. exists g, [], slots. auto.
  - destruct (IH s) as [(g' & l & r & E & -> & Nl)|[E Nl]]; [left; exists g', ((i, g) :: l), r|right]; (split; auto); cbn; [split; auto|]; intros [X|X]; auto.
Qed.
Lemma find_mob : forall (C : content) m slots, NoDup (map fst C) -> In (m, slots) C -> find (fun x => fst x =? m) C = Some (m, slots).
Proof.
  induction C as [|[a b] C IH]; intros m slots N I; [destruct I|]. cbn in *. inversion N; subst. destruct I as [E|I]; [injection E as -> ->; rewrite Z.eqb_refl; auto|].
  destruct (Z.eqb_spec a m) as [->|]; auto. exfalso. apply H1. apply in_map with (f := fst) in I. auto.
Qed.
Lemma slot_of_spec : forall C m s t, NoDup (map fst C) ->
  match slot_of C m s with
  | Ok None => stops C (GClip m s t)
  | Ok (Some g) => exists m' s', m = Some m' /\ s = Some s' /\ in_slot C m' s' g
  | Err e => fault C (GClip m s t) e
  end.
Proof.
  intros C m s t N. unfold slot_of. destruct m as [m|]; [|constructor]. destruct (Z.eqb_spec m 0) as [->|Nm]; [constructor|]. destruct (find (fun x => fst x =? m) C) as [[a slots]|] eqn:F.
  - apply find_some in F as [I E]. cbn in E. apply Z.eqb_eq in E. subst a. destruct s as [s|]; [|apply stops_slot]. cbn [snd]. destruct (slot_at_spec slots s) as [(g & l & r & E & Es & Nl)|[E Nl]]; rewrite E; cbn [bind].
    + exists m, s. split; auto. split; auto. split; auto. exists slots, l, r. auto.
    + eapply fault_slot; eauto.
  - apply stops_missing. intros I. apply in_map_iff in I as ([a slots] & E & I). cbn in E. subst a. rewrite (find_mob _ _ _ N I) in F. discriminate.
Qed.
Lemma in_slot_unique : forall C m s g g', NoDup (map fst C) -> in_slot C m s g -> in_slot C m s g' -> g = g'.
Proof.
  intros C m s g g' N (Nm & slots & l & r & I & E & Nl) (_ & slots' & l' & r' & I' & E' & Nl'). apply find_mob in I, I'; auto. rewrite I in I'. injection I' as <-. rewrite E in E'. clear - E' Nl Nl'.
  revert l' E' Nl'. induction l as [|[a x] l IH]; intros [|[b y] l'] E' Nl'; cbn in *.
  - injection E' as <-. auto. - injection E' as -> _ _. exfalso. apply Nl'. auto. - injection E' as -> _ _. exfalso. apply Nl. auto. - injection E' as _ _ E'. apply (IH (fun X => Nl (or_intror X)) l'); auto.
Qed.
Lemma in_slot_plain : forall C m s cs, plain_content C -> in_slot C m s (GSeq cs) -> plain cs.
Proof. intros C m s cs [_ P] (_ & slots & l & r & I & -> & _). eapply P; eauto. apply in_or_app. right. left. reflexivity. Qed.

(** one step of the walk *)
Inductive step (C : content) (c : seg) : list seg -> outcome + seg -> Prop :=
  | s_stop : stops C c -> step C c [] (inl Ended)
  | s_fault : forall e, fault C c e -> step C c [] (inl (Raised e))
  | s_last : forall g, leads C c g -> ~ is_clip g -> step C c [g] (inl Ended)
  | s_next : forall x, leads C c x -> is_clip x -> step C c [x] (inr x).
Lemma walk_step : forall C m s t, plain_content C -> exists l o, step C (GClip m s t) l o /\ forall f,
  walk (S f) C m s t = match o with inl o => (l, o) | inr (GClip m' s' t') => (l ++ fst (walk f C m' s' t'), snd (walk f C m' s' t')) | inr _ => ([], Going) end.
Proof.
  intros C m s t P. destruct P as [N P0] eqn:EP. clear EP. assert (P' := conj N P0 : plain_content C). pose proof (slot_of_spec C m s t N) as S. cbn [walk]. destruct (slot_of C m s) as [[g|]|e].
  - destruct S as (m' & s' & -> & -> & I). destruct g as [m1 s1 t1|cs|n|n|n|n|n].
    + exists [GClip m1 s1 t1], (inr (GClip m1 s1 t1)). split; [apply s_next; [apply leads_slot; auto; intros [? X]; discriminate|do 3 eexists; auto]|auto].
    + pose proof (in_slot_plain _ _ _ _ P' I) as Pc. destruct t as [t|].
      * pose proof (component_at_spec cs t Pc) as Q. destruct (component_at cs (Some t)) as [x|e].
        -- destruct x as [m1 s1 t1|cs1|n|n|n|n|n];
             [exists [GClip m1 s1 t1], (inr (GClip m1 s1 t1)); split; [apply s_next; [eapply leads_seq; eauto; do 3 eexists; auto|do 3 eexists; auto]|auto]|..];
             (exists [], (inl (Raised NotImplemented)); split; [apply s_fault; eapply fault_kind; eauto; intros (? & ? & ? & X); discriminate|auto]).
        -- destruct Q as [-> [[L ->]|[L ->]]]; (eexists [], (inl (Raised _)); split; [apply s_fault|auto]); [apply fault_first; auto|apply fault_empty; auto].
      * exists [], (inl (Raised TypeError)). split; [apply s_fault; eapply fault_start; eauto|auto].
    + eexists [_], (inl Ended). split; [apply s_last; [apply leads_slot; eauto; intros [? X]; discriminate|intros (? & ? & ? & X); discriminate]|auto].
    + eexists [_], (inl Ended). split; [apply s_last; [apply leads_slot; eauto; intros [? X]; discriminate|intros (? & ? & ? & X); discriminate]|auto].
    + eexists [_], (inl Ended). split; [apply s_last; [apply leads_slot; eauto; intros [? X]; discriminate|intros (? & ? & ? & X); discriminate]|auto].
    + eexists [_], (inl Ended). split; [apply s_last; [apply leads_slot; eauto; intros [? X]; discriminate|intros (? & ? & ? & X); discriminate]|auto].
    + exists [], (inl (Raised NotImplemented)). split; [apply s_fault; eapply fault_other; eauto; eexists; auto|auto].
  - exists [], (inl Ended). split; [apply s_stop; auto|auto].
  - exists [], (inl (Raised e)). split; [apply s_fault; auto|auto].
Qed.
(** the three are exclusive *)
Lemma leads_unique : forall C c x y, plain_content C -> leads C c x -> leads C c y -> x = y.
Proof.
  intros C c x y P A B. pose proof P as [N _]. inversion A; subst; inversion B; subst.
  - eapply in_slot_unique; eauto.
  - exfalso. match goal with H : ~ is_seq _ |- _ => apply H end. assert (x = GSeq cs) by (eapply in_slot_unique; eauto). eexists; eauto.
  - exfalso. match goal with H : ~ is_seq _ |- _ => apply H end. assert (y = GSeq cs) by (eapply in_slot_unique; eauto). eexists; eauto.
  - assert (X : GSeq cs = GSeq cs0) by (eapply in_slot_unique; eauto). injection X as <-. eapply at_time_unique; eauto. eapply in_slot_plain; eauto.
Qed.
Lemma in_slot_key : forall C m s g, in_slot C m s g -> In m (map fst C).
Proof. intros C m s g (_ & slots & l & r & I & _). apply in_map with (f := fst) in I. auto. Qed.
Lemma leads_stops : forall C c x, leads C c x -> stops C c -> False.
Proof. intros C c x A B. inversion A; subst; inversion B; subst; try (match goal with H : in_slot _ 0 _ _ |- _ => destruct H as [H _]; congruence end); match goal with H : in_slot _ _ _ _ |- _ => apply in_slot_key in H; contradiction end. Qed.
Lemma slot_none : forall C m slots s g, NoDup (map fst C) -> In (m, slots) C -> ~ In s (map fst slots) -> in_slot C m s g -> False.
Proof. intros C m slots s g N I Ns (_ & slots' & l & r & I' & E & _). apply find_mob in I, I'; auto. rewrite I in I'. injection I' as <-. apply Ns. rewrite E, map_app. apply in_or_app. right. left. auto. Qed.
Lemma fault_stops : forall C c e, fault C c e -> stops C c -> False.
Proof.
  intros C c e A B. inversion A; subst; inversion B; subst; try congruence; try (match goal with H : in_slot _ 0 _ _ |- _ => destruct H as [H _]; congruence end);
  try (match goal with H : in_slot _ _ _ _ |- _ => apply in_slot_key in H; contradiction end).
  match goal with H : In (_, _) _ |- _ => apply in_map with (f := fst) in H; contradiction end.
Qed.
Lemma fault_leads : forall C c e x, plain_content C -> fault C c e -> leads C c x -> False.
Proof.
  intros C c e x P A B. pose proof P as [N _].
  assert (U : forall m s g g', in_slot C m s g -> in_slot C m s g' -> g = g') by (intros; eapply in_slot_unique; eauto).
  inversion A; subst; inversion B; subst; try (eapply slot_none; eauto; fail);
    repeat match goal with H1 : in_slot C ?m ?s ?g, H2 : in_slot C ?m ?s ?g' |- _ => lazymatch g' with g => fail | _ => pose proof (U _ _ _ _ H1 H2); clear H2 end end; subst;
    try (match goal with H : ~ is_other _ |- _ => apply H; auto; fail end);
    try (match goal with H : ~ is_seq _ |- _ => apply H; eexists; reflexivity end);
    try (match goal with H : is_other (GSeq _) |- _ => destruct H; discriminate end);
    try (match goal with H : at_time [] _ _ |- _ => destruct H as (l & ? & ? & ? & X & _); destruct l; discriminate end).
  all: match goal with H : GSeq _ = GSeq _ |- _ => injection H; clear H; intros; subst end.
  all: try (match goal with H : at_time [] _ _ |- _ => destruct H as (l & ? & ? & ? & X & _); destruct l; discriminate end).
  match goal with H : ~ is_clip ?g, K : is_clip ?x |- _ => apply H; replace g with x; auto; eapply at_time_unique; eauto; eapply in_slot_plain; eauto end.
Qed.

Lemma fault_unique : forall C c e e', plain_content C -> fault C c e -> fault C c e' -> e = e'.
Proof.
  intros C c e e' P A B. pose proof P as [N _].
  assert (U : forall m s g g', in_slot C m s g -> in_slot C m s g' -> g = g') by (intros; eapply in_slot_unique; eauto).
  inversion A; subst; inversion B; subst; auto; try (exfalso; eapply slot_none; eauto; fail);
    repeat match goal with H1 : in_slot C ?m ?s ?g, H2 : in_slot C ?m ?s ?g' |- _ => lazymatch g' with g => fail | _ => pose proof (U _ _ _ _ H1 H2); clear H2 end end; subst;
    try (match goal with H : is_other (GSeq _) |- _ => destruct H; discriminate end); try lia.
  all: exfalso; match goal with H : GSeq _ = GSeq _ |- _ => injection H; clear H; intros; subst | _ => idtac end.
  all: try (match goal with H : at_time [] _ _ |- _ => destruct H as (l & ? & ? & ? & X & _); destruct l; discriminate end).
Qed.
Lemma path_clip : forall C c l d, is_clip c -> path C c l d -> is_clip d.
Proof. intros C c l d I H. induction H; auto. Qed.
(** what the walk gives, by the outcome *)
Definition gives (C : content) (c : seg) (l : list seg) (o : outcome) : Prop :=
  match o with
  | Ended => chain C c l
  | Raised e => exists d, path C c l d /\ fault C d e
  | Going => exists d, path C c l d
  end.
Lemma gives_next : forall C c x l o, leads C c x -> is_clip x -> gives C x l o -> gives C c (x :: l) o.
Proof.
  intros C c x l o L I G. destruct o; cbn [gives] in *.
  - destruct G as [(d & P & S)|(p & d & g & -> & P & Q & N)]; [left; exists d; split; auto; econstructor; eauto|right; exists (x :: p), d, g; split; auto; split; [econstructor; eauto|auto]].
  - destruct G as (d & P & F). exists d. split; auto. econstructor; eauto.
  - destruct G as (d & P). exists d. econstructor; eauto.
Qed.
Lemma walk_gives : forall C, plain_content C -> forall f m s t, gives C (GClip m s t) (fst (walk f C m s t)) (snd (walk f C m s t)) /\ (snd (walk f C m s t) = Going -> List.length (fst (walk f C m s t)) = f).
Proof.
  intros C P. induction f as [|f IH]; intros m s t; [cbn; split; [eexists; constructor|auto]|].
  destruct (walk_step C m s t P) as (l & o & St & E). rewrite (E f). clear E. destruct St as [S|e F|g L N|x L I]; cbn [fst snd].
  - split; [left; eexists; split; [constructor|auto]|discriminate].
  - split; [eexists; split; [constructor|auto]|discriminate].
  - split; [right; exists [], (GClip m s t), g; split; auto; split; [constructor|auto]|discriminate].
  - destruct I as (m' & s' & t' & ->). destruct (IH m' s' t') as [G H]. cbn [fst snd app]. split; [apply gives_next; auto; do 3 eexists; auto|]. intros X. cbn. rewrite H by auto. auto.
Qed.
Lemma walk_more : forall C, plain_content C -> forall f m s t, snd (walk f C m s t) <> Going -> walk (S f) C m s t = walk f C m s t.
Proof.
  intros C P. induction f as [|f IH]; intros m s t H; [cbn in H; congruence|]. destruct (walk_step C m s t P) as (l & o & St & E). rewrite (E (S f)), (E f). rewrite (E f) in H. destruct St as [| | |x L (m' & s' & t' & ->)]; auto.
  cbn [snd] in H. rewrite IH by auto. auto.
Qed.
Lemma walk_path : forall C, plain_content C -> forall m s t l d, path C (GClip m s t) l d -> forall f, exists m' s' t', d = GClip m' s' t' /\
  walk (List.length l + f) C m s t = (l ++ fst (walk f C m' s' t'), snd (walk f C m' s' t')).
Proof.
  intros C P m s t l d H. remember (GClip m s t) as c eqn:Ec. revert m s t Ec. induction H as [c|c x l d L I H IH]; intros m s t -> f.
  - exists m, s, t. split; auto. cbn. destruct (walk f C m s t); auto.
  - destruct I as (m1 & s1 & t1 & ->). destruct (IH m1 s1 t1 eq_refl f) as (m' & s' & t' & -> & E). exists m', s', t'. split; auto. cbn [List.length Nat.add].
    destruct (walk_step C m s t P) as (q & o & St & X). rewrite X. destruct St as [S|e F|g L' N|x L' I].
    + exfalso. eapply leads_stops; eauto.
    + exfalso. eapply fault_leads; eauto.
    + exfalso. apply N. rewrite (leads_unique _ _ _ _ P L' L). do 3 eexists; auto.
    + rewrite (leads_unique _ _ _ _ P L' L). rewrite E. cbn. auto.
Qed.
Lemma gives_walk : forall C, plain_content C -> forall m s t l o, o <> Going -> gives C (GClip m s t) l o -> walk (S (List.length l)) C m s t = (l, o).
Proof.
  intros C P m s t l o No G.
  assert (K : forall p d q o', path C (GClip m s t) p d -> step C d q (inl o') -> walk (List.length p + 1) C m s t = (p ++ q, o')).
  { intros p d q o' Hp Hs. destruct (walk_path C P m s t p d Hp 1%nat) as (m' & s' & t' & -> & E). rewrite E. destruct (walk_step C m' s' t' P) as (q' & r & St & X). rewrite X. inversion Hs; subst; inversion St; subst; cbn [fst snd]; auto;
      try (exfalso; eapply fault_stops; eauto; fail); try (exfalso; eapply leads_stops; eauto; fail); try (exfalso; eapply fault_leads; eauto; fail).
    - f_equal. f_equal. f_equal. 1: eapply fault_unique; eauto.
    - match goal with H : leads C _ ?a, H1 : leads C _ ?b |- (p ++ [?b], _) = _ => replace b with a; auto; eapply leads_unique; eauto end.
    - exfalso. match goal with H : ~ is_clip ?g, H1 : is_clip ?x |- _ => apply H; replace g with x; auto; eapply leads_unique; eauto end. }
  destruct o; cbn [gives] in G; [| |congruence].
  - destruct G as [(d & Hp & Sp)|(p & d & g & -> & Hp & L & N)].
    + replace (S (List.length l)) with (List.length l + 1)%nat by lia. rewrite (K l d [] Ended); auto; [rewrite app_nil_r; auto|constructor; auto].
    + rewrite app_length. cbn [List.length]. assert (X : walk (List.length p + 1) C m s t = (p ++ [g], Ended)) by (eapply K; eauto; constructor; auto). rewrite <- X. apply walk_more; auto. rewrite X. discriminate.
  - destruct G as (d & Hp & F). replace (S (List.length l)) with (List.length l + 1)%nat by lia. rewrite (K l d [] (Raised e)); auto; [rewrite app_nil_r; auto|constructor; auto].
Qed.

(** ** Theorems *)

(** It ends after yielding exactly the chain; the fuel of the model is only the length of the chain. *)
Theorem C70_walk : forall C m s t l, plain_content C -> ((exists fuel, walk fuel C m s t = (l, Ended)) <-> chain C (GClip m s t) l).
Proof.
  intros C m s t l P. split.
  - intros [f E]. destruct (walk_gives C P f m s t) as [G _]. rewrite E in G. auto.
  - intros G. exists (S (List.length l)). apply gives_walk; auto. discriminate.
Qed.
(** It raises what the first clip that cannot be followed raises, after yielding the clips before. *)
Theorem C70_raises : forall C m s t l e, plain_content C -> ((exists fuel, walk fuel C m s t = (l, Raised e)) <-> exists d, path C (GClip m s t) l d /\ fault C d e).
Proof.
  intros C m s t l e P. split.
  - intros [f E]. destruct (walk_gives C P f m s t) as [G _]. rewrite E in G. auto.
  - intros G. exists (S (List.length l)). apply gives_walk; auto. discriminate.
Qed.
(** However far it is followed, what it has yielded so far is a chain of clips. *)
Theorem C70_going : forall C m s t fuel l, plain_content C -> walk fuel C m s t = (l, Going) -> List.length l = fuel /\ exists d, path C (GClip m s t) l d.
Proof. intros C m s t f l P E. destruct (walk_gives C P f m s t) as [G H]. rewrite E in *. cbn in *. auto. Qed.
(** It stops if and only if there is no infinite chain of clips. *)
Theorem C70_stops_iff : forall C m s t, plain_content C ->
  ((exists fuel l o, walk fuel C m s t = (l, o) /\ o <> Going) <-> exists n, forall l d, path C (GClip m s t) l d -> (List.length l <= n)%nat).
Proof.
  intros C m s t P. split.
  - intros (f & l & o & E & No). exists f. intros p d Hp. destruct (le_lt_dec (List.length p) f) as [L|L]; auto. exfalso.
    assert (M : forall k, walk (k + f) C m s t = (l, o)). { induction k as [|k IH]; auto. cbn [Nat.add]. rewrite walk_more; auto. rewrite IH. auto. }
    destruct (walk_path C P m s t p d Hp 0%nat) as (m' & s' & t' & _ & X). replace (List.length p + 0)%nat with (List.length p - f + f)%nat in X by lia. rewrite M in X. cbn in X. injection X as _ X. congruence.
  - intros [n H]. destruct (walk (S n) C m s t) as [l o] eqn:E. exists (S n), l, o. split; auto. intros ->. destruct (C70_going _ _ _ _ _ _ P E) as (L & d & Hp). apply H in Hp. lia.
Qed.
(** Clips that refer to each other are never done. *)
Theorem C70_cycle_refuted : forall C m s t l, plain_content C -> l <> [] -> path C (GClip m s t) l (GClip m s t) -> forall fuel, snd (walk fuel C m s t) = Going.
Proof.
  intros C m s t l P Ne Hp f. destruct (snd (walk f C m s t)) eqn:E; auto; exfalso;
  (assert (X : exists fuel l o, walk fuel C m s t = (l, o) /\ o <> Going) by (exists f, (fst (walk f C m s t)), (snd (walk f C m s t)); split; [destruct (walk f C m s t); auto|rewrite E; discriminate]));
  apply C70_stops_iff in X as [n H]; auto;
  (assert (G : forall k, exists q, path C (GClip m s t) q (GClip m s t) /\ (k <= List.length q)%nat) by
   (induction k as [|k (q & Hq & Lq)]; [exists []; split; [constructor|cbn; lia]|exists (l ++ q); split;
      [assert (A : forall c p d q e, path C c p d -> path C d q e -> path C c (p ++ q) e) by (clear; intros c p d q e H; induction H; intros; cbn; auto; econstructor; eauto); eapply A; eauto
      |rewrite app_length; destruct l; [congruence|cbn; lia]]]));
  destruct (G (S n)) as (q & Hq & Lq); apply H in Hq; lia.
Qed.

(** The point of time that is followed: at the start of a clip, [off] into it. *)
Inductive truly (C : content) : seg -> Z -> list seg -> Prop :=
  | truly_stop : forall c off, stops C c -> truly C c off []
  | truly_last : forall m s t off g, in_slot C m s g -> ~ is_clip g -> ~ is_seq g -> ~ is_other g -> truly C (GClip (Some m) (Some s) (Some t)) off [g]
  | truly_clip : forall m s t off g l, in_slot C m s g -> is_clip g -> truly C g (t + off) l -> truly C (GClip (Some m) (Some s) (Some t)) off (g :: l)
  | truly_seq : forall m s t off a tr n g b l, in_slot C m s (GSeq (a ++ (tr, n, g) :: b)) -> sum a <= t + off < sum a + n -> is_clip g -> truly C g (t + off - sum a) l ->
      truly C (GClip (Some m) (Some s) (Some t)) off (g :: l).
(** It forgets how far into each clip it is. *)
Definition drift : content :=
  [(1, [(1, GClip (Some 2) (Some 1) (Some 0))]); (2, [(1, GSeq [(false, 5, GClip (Some 3) (Some 1) (Some 0)); (false, 20, GClip (Some 4) (Some 1) (Some 0))])])].
Theorem C70_offset_refuted : exists C c l l', plain_content C /\ chain C c l /\ truly C c 0 l' /\ l <> l'.
Proof.
  exists drift, (GClip (Some 1) (Some 1) (Some 10)), [GClip (Some 2) (Some 1) (Some 0); GClip (Some 3) (Some 1) (Some 0)], [GClip (Some 2) (Some 1) (Some 0); GClip (Some 4) (Some 1) (Some 0)].
  assert (P : plain_content drift).
  { split; [repeat constructor; cbn; lia|]. intros m slots s cs I J. cbn in I. destruct I as [I|[I|[]]]; injection I as <- <-; cbn in J; destruct J as [J|[]]; [discriminate|]. injection J as _ <-. repeat constructor; cbn; lia. }
  split; auto. split; [apply C70_walk; auto; exists 3%nat; reflexivity|]. split; [|discriminate].
  eapply truly_clip; [split; [lia|]; eexists _, [], []; split; [left; reflexivity|]; split; [reflexivity|auto]|do 3 eexists; reflexivity|].
  eapply truly_seq with (a := [(false, 5, GClip (Some 3) (Some 1) (Some 0))]) (b := []) (n := 20) (tr := false); [split; [lia|]; eexists _, [], []; split; [right; left; reflexivity|]; split; [reflexivity|auto]|cbn; lia|do 3 eexists; reflexivity|].
  apply truly_stop. apply stops_missing. cbn. lia.
Qed.
(** Where the clips on the way start at their beginning and what they lead to does too, it is right. *)
Definition begins (C : content) : Prop := forall m slots s g, In (m, slots) C -> In (s, g) slots ->
  (forall m' s' t, g = GClip m' s' t -> t = Some 0) /\ (forall cs tr n m' s' t, g = GSeq cs -> In (tr, n, GClip m' s' t) cs -> t = Some 0 /\ 0 < n).
Lemma begins_slot : forall C m s g, begins C -> in_slot C m s g ->
  (forall m' s' t, g = GClip m' s' t -> t = Some 0) /\ (forall cs tr n m' s' t, g = GSeq cs -> In (tr, n, GClip m' s' t) cs -> t = Some 0 /\ 0 < n).
Proof. intros C m s g B (_ & slots & l & r & I & -> & _). apply (B m (l ++ (s, g) :: r) s g I). apply in_or_app. right. left. auto. Qed.
Theorem C70_begins : forall C l, plain_content C -> begins C -> forall m s, chain C (GClip m s (Some 0)) l -> truly C (GClip m s (Some 0)) 0 l.
Proof.
  intros C l P B.
  assert (K : forall m s x, leads C (GClip m s (Some 0)) x -> forall q, (is_clip x -> truly C x 0 q) -> (~ is_clip x -> q = []) -> (is_clip x -> exists m' s', x = GClip m' s' (Some 0)) /\ truly C (GClip m s (Some 0)) 0 (x :: q)).
  { intros m s x L q T1 T2. inversion L as [m1 s1 t1 g1 I Ns No|m1 s1 t1 cs g1 I A Ic]; subst.
    - assert (Z0 : is_clip x -> exists m' s', x = GClip m' s' (Some 0)). { intros (m' & s' & t' & ->). destruct (begins_slot _ _ _ _ B I) as [Bc _]. rewrite (Bc _ _ _ eq_refl). eauto. }
      split; auto. destruct x as [m' s' t'|cs|n|n|n|n|n]; [eapply truly_clip; eauto; [do 3 eexists; auto|apply T1; do 3 eexists; auto]|exfalso; apply Ns; eexists; auto|..];
        try (rewrite T2 by (intros (? & ? & ? & X); discriminate); eapply truly_last; eauto; intros (? & ? & ? & X); discriminate).
    - destruct A as (a & tr & n & b & -> & Ha & Hb). pose proof (in_slot_plain _ _ _ _ P I) as Pc. unfold plain in Pc. apply Forall_app in Pc as [Pa Pb]. assert (a = []). { destruct Ha as [|Ha]; auto. apply sum_nonneg in Pa. lia. } subst a.
      destruct Ic as (m' & s' & t' & ->). destruct (begins_slot _ _ _ _ B I) as [_ Bs].
      destruct (Bs _ tr n m' s' t' eq_refl (or_introl eq_refl)) as [-> Hn]. split; [eauto|]. eapply (truly_seq C m1 s1 0 0 [] tr n); eauto; [cbn; lia|do 3 eexists; auto|]. cbn. apply T1. do 3 eexists; auto. }
  assert (G : forall c p d, path C c p d -> forall m s, c = GClip m s (Some 0) -> forall q, (forall m' s', d = GClip m' s' (Some 0) -> truly C d 0 q) -> truly C c 0 (p ++ q)).
  { intros c p d Hp. induction Hp as [c|c x p d L I Hp IH]; intros m s -> q Tq; [eapply Tq; eauto|]. cbn [app].
    destruct I as (mx & sx & tx & Ex). assert (Z0 : exists m' s', x = GClip m' s' (Some 0)).
    { subst x. inversion L as [m1 s1 t1 g1 I Ns No|m1 s1 t1 cs g1 I A Ic]; subst.
      - destruct (begins_slot _ _ _ _ B I) as [Bc _]. rewrite (Bc _ _ _ eq_refl). eauto.
      - destruct A as (a & tr & n & b & -> & _). destruct (begins_slot _ _ _ _ B I) as [_ Bs]. destruct (Bs _ tr n mx sx tx eq_refl) as [-> _]; [apply in_or_app; right; left; auto|]. eauto. }
    destruct Z0 as (m' & s' & Ez). apply K; auto. { intros _. eapply IH; eauto. } intros N. exfalso. apply N. subst x. do 3 eexists; eauto. }
  intros m s [(d & Hp & S)|(p & d & g & -> & Hp & L & N)].
  - rewrite <- (app_nil_r l). eapply G; eauto. intros m' s' ->. apply truly_stop. auto.
  - eapply G; eauto. intros m' s' ->. apply K; auto. intros I. contradiction.
Qed.

(** At a cut it takes the clip that ends there. *)
Definition cut : content := [(2, [(1, GSeq [(false, 5, GClip (Some 3) (Some 1) (Some 0)); (false, 20, GClip (Some 4) (Some 1) (Some 0))])])].
Lemma cut_plain : plain_content cut.
Proof. split; [repeat constructor; cbn; lia|]. intros m slots s cs I J. cbn in I. destruct I as [I|[]]; injection I as <- <-; cbn in J; destruct J as [J|[]]. injection J as _ <-. repeat constructor; cbn; lia. Qed.
Theorem C70_cut_refuted : exists C c l l', plain_content C /\ begins C /\ chain C c l /\ truly C c 0 l' /\ l <> l'.
Proof.
  exists cut, (GClip (Some 2) (Some 1) (Some 5)), [GClip (Some 3) (Some 1) (Some 0)], [GClip (Some 4) (Some 1) (Some 0)]. split; [apply cut_plain|].
  split. { intros m slots s g I J. cbn in I. destruct I as [I|[]]; injection I as <- <-; cbn in J; destruct J as [J|[]]. injection J as _ <-. split; [discriminate|]. intros cs tr n m' s' t E I. injection E as <-. cbn in I. destruct I as [I|[I|[]]]; injection I as <- <- <- <- <-; split; auto; lia. }
  split; [apply C70_walk; [apply cut_plain|]; exists 3%nat; reflexivity|]. split; [|discriminate].
  eapply truly_seq with (a := [(false, 5, GClip (Some 3) (Some 1) (Some 0))]) (b := []) (n := 20) (tr := false); [split; [lia|]; eexists _, [], []; split; [left; reflexivity|]; split; [reflexivity|auto]|cbn; lia|do 3 eexists; reflexivity|].
  apply truly_stop. apply stops_missing. cbn. lia.
Qed.
(** In a transition it fails; outside of it the same sequence can be followed. *)
Definition dissolve : content := [(2, [(1, GSeq [(false, 10, GClip (Some 3) (Some 1) (Some 0)); (true, 4, GOther 7); (false, 20, GClip (Some 4) (Some 1) (Some 0))])])].
Theorem C70_transition_refuted : forall t fuel, 6 <= t < 10 -> walk (S fuel) dissolve (Some 2) (Some 1) (Some t) = ([], Raised NotImplemented) /\ exists x, walk (S (S fuel)) dissolve (Some 2) (Some 1) (Some 3) = ([x], Ended).
Proof.
  intros t f H. split; [|eexists; reflexivity]. cbn [walk]. assert (X : component_at [(false, 10, GClip (Some 3) (Some 1) (Some 0)); (true, 4, GOther 7); (false, 20, GClip (Some 4) (Some 1) (Some 0))] (Some t) = Ok (GOther 7)).
  { unfold component_at, index_at_time. replace (t <=? 0) with false by lia. cbn [map fst positions positions_from index_loop andb]. replace ((0 + 10 - 4 <=? t) && (t <? 0 + 10 - 4 + 4)) with true by lia. reflexivity. }
  cbn [slot_of dissolve find fst snd slot_at Z.eqb Pos.eqb bind]. rewrite X. reflexivity.
Qed.

(** ** Cases *)
Definition good : content :=
  [(1, [(1, GClip (Some 2) (Some 3) (Some 0)); (2, GFiller 9)]); (2, [(1, GPulldown 8); (3, GSeq [(false, 7, GClip (Some 3) (Some 1) (Some 0)); (false, 5, GFiller 6)])]); (3, [(1, GClip None (Some 1) (Some 0))])].
Example C70_case : plain_content good /\ begins good /\ chain good (GClip (Some 1) (Some 1) (Some 0)) [GClip (Some 2) (Some 3) (Some 0); GClip (Some 3) (Some 1) (Some 0); GClip None (Some 1) (Some 0)] /\
  chain good (GClip (Some 1) (Some 2) (Some 4)) [GFiller 9] /\ (exists d, path good (GClip (Some 2) (Some 3) (Some 9)) [] d /\ fault good d NotImplemented) /\
  (exists d, path good (GClip (Some 1) (Some 9) (Some 9)) [] d /\ fault good d IndexError).
Proof.
  assert (P : plain_content good).
  { split; [repeat constructor; cbn; lia|]. intros m slots s cs I J. cbn in I. destruct I as [I|[I|[I|[]]]]; injection I as <- <-; cbn in J; repeat (destruct J as [J|J]; [try discriminate J|]); try (exfalso; exact J). injection J as _ <-. repeat constructor; cbn; lia. }
  split; auto. split.
  { intros m slots s g I J. cbn in I. destruct I as [I|[I|[I|[]]]]; injection I as <- <-; cbn in J; repeat (destruct J as [J|J]; [injection J as <- <-; split; [intros m' s' t E; congruence|intros cs tr n m' s' t E X; try discriminate E]|]); try (exfalso; exact J).
    injection E as <-. cbn in X. destruct X as [X|[X|[]]]; [|discriminate]. injection X as <- <- <- <- <-. split; auto; lia. }
  split; [apply C70_walk; auto; exists 5%nat; reflexivity|]. split; [apply C70_walk; auto; exists 5%nat; reflexivity|]. split; apply C70_raises; auto; exists 5%nat; reflexivity.
Qed.
(** two mobs that refer to each other *)
Example C70_cycle_case : let C := [(1, [(1, GClip (Some 2) (Some 1) (Some 0))]); (2, [(1, GClip (Some 1) (Some 1) (Some 0))])] in
  plain_content C /\ path C (GClip (Some 1) (Some 1) (Some 0)) [GClip (Some 2) (Some 1) (Some 0); GClip (Some 1) (Some 1) (Some 0)] (GClip (Some 1) (Some 1) (Some 0)).
Proof.
  intros C. assert (P : plain_content C). { split; [repeat constructor; cbn; lia|]. intros m slots s cs I J. cbn in I. destruct I as [I|[I|[]]]; injection I as <- <-; cbn in J; destruct J as [J|[]]; discriminate. }
  split; auto. assert (E : walk 2 C (Some 1) (Some 1) (Some 0) = ([GClip (Some 2) (Some 1) (Some 0); GClip (Some 1) (Some 1) (Some 0)], Going)) by reflexivity.
  destruct (C70_going _ _ _ _ _ _ P E) as (_ & d & Hp). assert (d = GClip (Some 1) (Some 1) (Some 0)). { inversion Hp; subst. inversion H5; subst. inversion H8; subst. auto. } subst d. auto.
Qed.

Print Assumptions C70_walk.
Print Assumptions C70_raises.
Print Assumptions C70_going.
Print Assumptions C70_stops_iff.
Print Assumptions C70_cycle_refuted.
Print Assumptions C70_offset_refuted.
Print Assumptions C70_begins.
Print Assumptions C70_cut_refuted.
Print Assumptions C70_transition_refuted.
