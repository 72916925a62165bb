(** C65: objects can be taken out of an open file, and it can be saved. *)
From Verif Require Import Base BaseFacts Codec CodecFacts Text TextFacts TypesModel TypesFacts ObjModel PropsObj TreeModel PropsTree PropsTreeMore PropsTreeCopy EditModel EditFacts PropsEdit.
From Coq Require Import ZArith List Bool Lia String Arith.
Import ListNotations.
Open Scope Z_scope.

(** ** Specification *)

(** The storage at a place. *)
Fixpoint storage (w : path) (d : dir) : option dir :=
  match w with [] => Some d | n :: r => match dget d n with Some (Sub s) => storage r s | _ => None end end.
(** The storage of an object whose streams, and those of all below it, were taken away; nothing else changed. *)
Inductive stripped : obj -> dir -> dir -> Prop :=
| Stripped : forall cls props d d', class_of d' = class_of d ->
    (forall x n b, In x props -> In (n, b) (streams (snd x)) -> dget d' n = None) ->
    (forall x n c, In x props -> In (n, c) (kids (snd x)) -> exists s s', dget d n = Some (Sub s) /\ dget d' n = Some (Sub s') /\ stripped c s s') ->
    (forall n, (forall x, In x props -> ~ In n (children (snd x))) -> dget d' n = dget d n) ->
    stripped (Obj cls props) d d'.
(** No storage, at any depth, has a name that is one of "properties" or an index stream. *)
Definition plain (n : list Z) : Prop := last n 0 <> 115 /\ last n 0 <> 120.
Inductive tidy : dir -> Prop :=
| Tidy : forall d, (forall n s, dget d n = Some (Sub s) -> plain n /\ tidy s) -> tidy d.

(** ** Loops *)
Lemma each_run : forall A (f : A -> dir -> result dir) (own : A -> list (list Z)) (P : A -> dir -> Prop) l d,
  (forall x d1, In x l -> (forall n, In n (own x) -> dget d1 n = dget d n) -> exists d2, f x d1 = Ok d2 /\ frame (own x) d1 d2 /\ P x d2) ->
  (forall x d2 d3, In x l -> (forall n, In n (own x) -> dget d3 n = dget d2 n) -> P x d2 -> P x d3) ->
  NoDup (flat_map own l) ->
  exists d', each f l d = Ok d' /\ frame (flat_map own l) d d' /\ Forall (fun x => P x d') l.
Proof.
  intros A f own P. induction l as [|x l IH]; intros d HF HP HN. { exists d. split; auto. split; auto. split; auto. }
  cbn [flat_map] in HN. apply NoDup_app_iff in HN. destruct HN as (N1 & N2 & N3).
  destruct (HF x d (or_introl eq_refl)) as (d1 & E1 & (C1 & F1) & P1); auto.
  destruct (IH d1) as (d2 & E2 & (C2 & F2) & P2); auto.
  { intros y e I K. apply HF; [right; auto|]. intros n J. rewrite K by auto. apply F1. intros X. apply (N3 n); auto. apply in_flat_map. eauto. }
  { intros y e e' I. apply HP. right. auto. }
  exists d2. split; [cbn; rewrite E1; auto|]. split.
  - split; [congruence|]. intros m Hm. cbn [flat_map] in Hm. rewrite F2, F1; auto; intros I; apply Hm; apply in_or_app; auto.
  - constructor; auto. apply (HP x d1); [left; auto| |auto]. intros n I. apply F2. intros J. exact (N3 n I J).
Qed.
Lemma each_all : forall A S (f : A -> S -> result S) (I : S -> Prop) l d,
  (forall x d1, In x l -> I d1 -> exists d2, f x d1 = Ok d2 /\ I d2) -> I d -> exists d', each f l d = Ok d' /\ I d'.
Proof.
  intros A S0 f I. induction l as [|x l IH]; intros d HF HI. { exists d. split; auto. }
  destruct (HF x d (or_introl eq_refl) HI) as (d1 & E1 & I1). destruct (IH d1) as (d2 & E2 & I2); auto. { intros y e J. apply HF. right. auto. }
  exists d2. split; auto. cbn. rewrite E1. auto.
Qed.
Lemma each_inv : forall A S (f : A -> S -> result S) (I : S -> Prop) l d d',
  (forall x d1 d2, In x l -> I d1 -> f x d1 = Ok d2 -> I d2) -> I d -> each f l d = Ok d' -> I d'.
Proof.
  intros A S0 f I. induction l as [|x l IH]; intros d d' HF HI H; cbn in H. { injection H as <-. auto. }
  destruct (f x d) as [d1|] eqn:E; [|discriminate]. cbn [bind] in H. apply (IH d1 d'); auto. { intros y e e' J. apply HF. right. auto. } eapply HF; eauto. left. auto.
Qed.

(** ** Detaching *)
Lemma dget_del : forall d n m, dget (ddel d n) m = if zlist_eqb n m then None else dget d m.
Proof. intros [c l] n m. cbn [ddel dget]. apply zget_filter. Qed.
Lemma frame_del : forall d n, frame [n] d (ddel d n).
Proof.
  intros d n. split; [destruct d; auto|]. intros m Hm. rewrite dget_del. destruct (zlist_eqb n m) eqn:E; auto. apply zlist_eqb_spec in E. subst. exfalso. apply Hm. left. auto.
Qed.
Lemma within_run : forall d n s s' (k : dir -> result dir), dget d n = Some (Sub s) -> k s = Ok s' -> within d n k = Ok (dput d n (Sub s')).
Proof. intros d n s s' k H1 H2. unfold within. rewrite H1, H2. auto. Qed.

Section Detach.
Variable names : Z -> Z -> list Z.

Definition strip_prop (p : prop) (d d' : dir) : Prop :=
  (forall n b, In (n, b) (streams p) -> dget d' n = None) /\
  (forall n c, In (n, c) (kids p) -> exists s s', dget d n = Some (Sub s) /\ dget d' n = Some (Sub s') /\ stripped c s s').

Lemma detach_elements : forall A (nm : A -> list Z) (ob : A -> obj) l d d1,
  (forall x, In x l -> exists s s', dget d (nm x) = Some (Sub s) /\ detach_obj (ob x) s = Ok s' /\ stripped (ob x) s s') ->
  (forall x, In x l -> dget d1 (nm x) = dget d (nm x)) -> NoDup (map nm l) ->
  exists d', each (fun x d => within d (nm x) (detach_obj (ob x))) l d1 = Ok d' /\ frame (map nm l) d1 d' /\
    forall x, In x l -> exists s s', dget d (nm x) = Some (Sub s) /\ dget d' (nm x) = Some (Sub s') /\ stripped (ob x) s s'.
Proof.
  intros A nm ob l d d1 HK HD HN. assert (E : map nm l = flat_map (fun x => [nm x]) l) by (clear; induction l; cbn; f_equal; auto). rewrite E in *.
  destruct (each_run A (fun x d => within d (nm x) (detach_obj (ob x))) (fun x => [nm x]) (fun x d' => exists s s', dget d (nm x) = Some (Sub s) /\ dget d' (nm x) = Some (Sub s') /\ stripped (ob x) s s') l d1) as (d' & E1 & F & P); auto.
  - intros x e I J. destruct (HK x I) as (s & s' & G & D & T). exists (dput e (nm x) (Sub s')). split; [|split; [apply frame_put|]].
    + eapply within_run; eauto. rewrite (J (nm x)) by (left; auto). rewrite HD; auto.
    + exists s, s'. rewrite get_put_same. auto.
  - intros x e e' I J (s & s' & X & Y & Z). exists s, s'. rewrite (J (nm x)) by (left; auto). auto.
  - exists d'. split; auto. split; auto. rewrite Forall_forall in P. auto.
Qed.

Theorem detach_ok : forall o (M : path -> Prop) d, ready names o -> sync names M d o -> exists d', detach_obj o d = Ok d' /\ stripped o d d'.
Proof.
  intros o. induction o as [cls props IH] using obj_induct. intros M d HR HS. pose proof (ready_distinct _ _ _ HR) as HD. apply sync_inv in HS. destruct HS as (HC & HV & HT & HK).
  assert (KK : forall x n c, In x props -> In (n, c) (kids (snd x)) -> exists s s', dget d n = Some (Sub s) /\ detach_obj c s = Ok s' /\ stripped c s s').
  { intros x n c I J. destruct (HK x n c I J) as (s & G & S). rewrite Forall_forall in IH. pose proof (below_kids _ _ _ _ (IH x I) J) as IHc. cbn beta in IHc. destruct (IHc _ _ (form_kids _ _ _ _ (ready_form _ _ _ _ HR I) J) S) as (s' & D & T). eauto 6. }
  destruct (each_run _ (fun x d => detach_prop detach_obj (snd x) d) (fun x => children (snd x)) (fun x d' => strip_prop (snd x) d d') props d) as (d' & E & (C & F) & P).
  - intros [pid p] e I J. cbn [snd] in *. pose proof (ready_form names cls props _ HR I) as PF. pose proof (distinct_kids props _ HD I) as ND. cbn [snd] in *.
    assert (KP : forall n c, In (n, c) (kids p) -> exists s s', dget d n = Some (Sub s) /\ detach_obj c s = Ok s' /\ stripped c s s') by (intros n c; apply (KK (pid, p)); auto).
    assert (TP : forall n b, In (n, b) (streams p) -> dget d n = Some (File b)) by (intros n b; apply (HT (pid, p)); auto).
    clear - KP TP PF ND J.
    destruct p as [f da|da nm c|da nm o|da nm next last items|da nm next last kp ks items|f da i k s r|f da nm i k s r]; cbn [prop_form] in PF;
      try (exists e; split; [reflexivity|]; split; [split; auto|]; split; intros n c []; fail).
    + destruct PF as (n & e1 & b & -> & _ & _ & _ & ->). exists (ddel e n). cbn [detach_prop]. rewrite (J n) by (left; auto). rewrite (TP n b) by (left; auto). split; auto. split; [apply frame_del|]. split.
      * intros m b' [[= <- <-]|[]]. rewrite dget_del, zlist_eqb_refl. auto.
      * intros m c [].
    + destruct PF as (n & (-> & _) & PF). destruct o as [o|]; [|destruct PF]. destruct (KP n o) as (s & s' & G & D & T); [left; auto|]. exists (dput e n (Sub s')). split; [|split; [apply frame_put|]].
      * cbn [detach_prop]. eapply within_run; eauto. rewrite (J n) by (left; auto). auto.
      * split; [intros m b []|]. intros m c [[= <- <-]|[]]. exists s, s'. rewrite get_put_same. auto.
    + destruct PF as (n & (-> & _) & PF). cbn [detach_prop]. destruct (detach_elements _ (fun x => element_storage n (fst x)) (fun x => snd x) items d e) as (d' & E & F & P); auto.
      * intros x I. apply KP. cbn [kids]. apply in_map_iff. exists x. auto.
      * intros x I. apply J. cbn [children]. apply in_map_iff. exists x. auto.
      * exists d'. split; auto. split; auto. split; [intros m b []|]. intros m c I. cbn [kids] in I. apply in_map_iff in I. destruct I as (x & [= <- <-] & I). auto.
    + destruct PF as (n & size & (-> & _) & PF). cbn [detach_prop]. destruct (detach_elements _ (fun x => element_storage n (fst (snd x))) (fun x => snd (snd x)) items d e) as (d' & E & F & P); auto.
      * intros x I. apply KP. cbn [kids]. apply in_map_iff. exists x. auto.
      * intros x I. apply J. cbn [children]. apply in_map_iff. exists x. auto.
      * exists d'. split; auto. split; auto. split; [intros m b []|]. intros m c I. cbn [kids] in I. apply in_map_iff in I. destruct I as (x & [= <- <-] & I). auto.
  - intros x e e' I J (X & Y). split.
    + intros n b K. rewrite J by (eapply streams_children; eauto). eauto.
    + intros n c K. destruct (Y n c K) as (s & s' & G & G' & T). exists s, s'. rewrite J by (eapply kids_children; eauto). auto.
  - destruct HD as (_ & HD). apply NoDup_cons_iff in HD. destruct HD as [_ HD]. apply NoDup_app_iff in HD. tauto.
  - exists d'. split; auto. rewrite Forall_forall in P. constructor; auto.
    + intros x n b I J. destruct (P x I) as (X & _). eauto.
    + intros x n c I J. destruct (P x I) as (_ & Y). auto.
    + intros n N. apply F. intros I. apply in_flat_map in I. destruct I as (x & I & J). exact (N x I J).
Qed.

(** ** Actions at a place *)
Lemma at_path_total : forall A (k : dir -> obj -> result (dir * obj * A)) w (M : path -> Prop) d o c, ready names o -> sync names M d o -> look w o = Some c ->
  exists s, storage w d = Some s /\ ready names c /\ sync names (fun v => M (w ++ v)) s c /\
    forall s' c' a, k s c = Ok (s', c', a) -> exists d' o', at_path k w d o = Ok (d', o', a).
Proof.
  intros A k. induction w as [|n r IH]; intros M d o c HR HS HL; cbn [look] in HL.
  - injection HL as <-. exists d. cbn. split; auto. split; auto. split; [eapply sync_weaken; [exact HS|auto]|]. intros. eauto.
  - destruct o as [cls props]. destruct (kid props n) as [c1|] eqn:EK; [|discriminate]. destruct (kid_in _ _ _ EK) as (x & I & J). apply sync_inv in HS. destruct HS as (_ & _ & _ & HS). destruct (HS _ _ _ I J) as (s & G & S).
    destruct (IH _ s c1 c (form_kids _ _ _ _ (ready_form _ _ _ _ HR I) J) S HL) as (t & G2 & R2 & S2 & K2). exists t. cbn [storage at_path]. rewrite G, EK. split; auto. split; auto. split; auto. intros s' c' a H. destruct (K2 _ _ _ H) as (d' & o' & E). rewrite E. cbn [bind]. eauto.
Qed.
End Detach.

(** The objects at and below any place of an open file can be detached: their streams leave the storages,
    everything else stays. *)
Theorem C65_detach : forall names s0 s w c, (forall cls pid, Forall bmp (names cls pid)) -> start names s0 -> steps names s0 s -> look w (s_obj s) = Some c ->
  exists d d', storage w (s_dir s) = Some d /\ detach_obj c d = Ok d' /\ stripped c d d'.
Proof.
  intros names s0 s w c NB HS HT HL. apply start_good in HS. apply (steps_good names NB _ _ HT) in HS. destruct HS as (HR & HS).
  destruct (at_path_total names unit (fun _ _ => Err GenericError) w _ _ _ _ HR HS HL) as (d & G & R & S & _). destruct (detach_ok names _ _ _ R S) as (d' & D & T). eauto.
Qed.
Print Assumptions C65_detach.

(** ** Changes that only take something out *)

(** Specification: the change names something that is there. *)
Definition removes (props : list (Z * prop)) (e : edit) : Prop :=
  match e with
  | EPut _ _ | EDel _ => True
  | EPop pid i => 0 <= i < zlen (vector props pid)
  | EClear pid => match dict_get Z.eqb props pid with Some (PVec _ _ _ _ _) | Some (PSet _ _ _ _ _ _ _) => True | _ => False end
  | ERemove pid key => member props pid key <> None
  | _ => False
  end.
Lemma remove_props : forall names cls props e, ready names (Obj cls props) -> removes props e ->
  exists props' gone, edit_props names cls props e = Ok (props', gone, []) /\ NoDup gone /\ forall n, In n gone -> exists c, kid props n = Some c.
Proof.
  intros names cls props e HR H. pose proof (ready_distinct _ _ _ HR) as HD. destruct e as [pid p|pid|pid o loaded|pid o|pid i o|pid i|pid i o|pid|pid kpid ksize key o loaded|pid key]; cbn [removes edit_props] in *; try (destruct H; fail); unfold vector, member in *.
  - eexists _, _. split; [reflexivity|]. split; [constructor|]. intros n [].
  - eexists _, _. split; [reflexivity|]. split; [constructor|]. intros n [].
  - destruct (dict_get Z.eqb props pid) as [[| | |d nm next last items| | |]|] eqn:EG; cbn in H; try lia. apply dict_get_In in EG. pose proof (ready_form names _ _ _ HR EG) as PF. cbn in PF. destruct PF as (n & (-> & _) & _).
    replace (0 <=? i) with true by lia. cbn [bind]. rewrite zlen_map in H. destruct (znth items i) as [[k ok]|] eqn:EZ.
    + eexists _, _. split; [reflexivity|]. split; [constructor; [intros []|constructor]|]. intros m [<-|[]]. exists ok. apply (kid_some props (pid, PVec d (Some n) next last items)); auto. cbn. apply in_map_iff. exists (k, ok). split; auto. eapply znth_In; eauto.
    + exfalso. unfold znth in EZ. replace ((0 <=? i) && (i <? zlen items)) with true in EZ by lia. apply nth_error_None in EZ. unfold zlen in H. lia.
  - destruct (dict_get Z.eqb props pid) as [[| | |d nm next last items|d nm next last kp ks items| |]|] eqn:EG; cbn in H; try (destruct H; fail); apply dict_get_In in EG; pose proof (ready_form names _ _ _ HR EG) as PF; cbn in PF; pose proof (distinct_kids props _ HD EG) as ND; cbn [snd] in ND.
    + destruct PF as (n & (-> & _) & _). eexists _, _. split; [reflexivity|]. split; [exact ND|]. intros m I. apply in_map_iff in I. destruct I as (x & <- & I). exists (snd x). eapply kid_some; eauto. cbn. apply in_map_iff. exists x. auto.
    + destruct PF as (n & size & (-> & _) & _). eexists _, _. split; [reflexivity|]. split; [exact ND|]. intros m I. apply in_map_iff in I. destruct I as (x & <- & I). exists (snd (snd x)). eapply kid_some; eauto. cbn. apply in_map_iff. exists x. auto.
  - destruct (dict_get Z.eqb props pid) as [[| | | |d nm next last kp ks items| |]|] eqn:EG; cbn in H; try congruence. apply dict_get_In in EG; pose proof (ready_form names _ _ _ HR EG) as PF; cbn in PF. destruct PF as (n & size & (-> & _) & _).
    destruct (dict_get zlist_eqb items key) as [[k ok]|] eqn:EK; [|cbn in H; congruence]. eexists _, _. split; [reflexivity|]. split; [constructor; [intros []|constructor]|]. intros m [<-|[]]. exists ok. apply (kid_some props (pid, PSet d (Some n) next last kp ks items)); auto. cbn. apply in_map_iff.
    exists (key, (k, ok)). split; auto. clear - EK. induction items as [|[u v] l IH]; cbn in *; [discriminate|]. destruct (zlist_eqb u key) eqn:E; auto. apply zlist_eqb_spec in E. left. congruence.
Qed.

(** Taking out what is there never fails. *)
Theorem C65_removes : forall names s0 s w cls props e, (forall cls pid, Forall bmp (names cls pid)) -> start names s0 -> steps names s0 s ->
  look w (s_obj s) = Some (Obj cls props) -> removes props e -> exists s', act names s (AEdit w e) = Ok s'.
Proof.
  intros names s0 s w cls props e NB HS HT HL H. apply start_good in HS. apply (steps_good names NB _ _ HT) in HS. destruct HS as (HR & HS).
  destruct (at_path_total names _ (edit_obj names e) w _ _ _ _ HR HS HL) as (d & G & R & S & K). destruct (remove_props _ _ _ _ R H) as (props' & gone & EP & ND & GK).
  destruct (each_run _ (fun n d => match kid props n with Some c => within d n (detach_obj c) | None => Err GenericError end) (fun n => [n]) (fun _ _ => True) gone d) as (d1 & E1 & _).
  - intros n e1 I J. destruct (GK n I) as (c & EK). rewrite EK. destruct (kid_in _ _ _ EK) as (x & I2 & J2). pose proof (sync_inv _ _ _ _ _ S) as (_ & _ & _ & SK). destruct (SK _ _ _ I2 J2) as (t & G2 & S2).
    destruct (detach_ok names _ _ _ (form_kids _ _ _ _ (ready_form _ _ _ _ R I2) J2) S2) as (t' & D & _). exists (dput e1 n (Sub t')). split; [|split; [apply frame_put|auto]]. eapply within_run; eauto. rewrite J by (left; auto). auto.
  - auto.
  - replace (flat_map (fun n => [n]) gone) with gone by (clear; induction gone; cbn; f_equal; auto). auto.
  - destruct (K d1 (Obj cls props') (gone, [])) as (d' & o' & E). { cbn [edit_obj]. rewrite EP. cbn [bind]. rewrite E1. auto. } cbn [act]. rewrite E. cbn [bind]. eauto.
Qed.
Print Assumptions C65_removes.

(** ** Saving *)
Lemma tidy_put_file : forall d n b, tidy d -> tidy (dput d n (File b)).
Proof. intros d n b [d0 H]. constructor. intros m s E. rewrite dget_put in E. destruct (zlist_eqb n m); [discriminate|]. eauto. Qed.
Lemma tidy_put_sub : forall d n t, tidy d -> plain n -> tidy t -> tidy (dput d n (Sub t)).
Proof. intros d n t [d0 H] P T. constructor. intros m s E. rewrite dget_put in E. destruct (zlist_eqb n m) eqn:Z; [|eauto]. apply zlist_eqb_spec in Z. subst m. injection E as <-. auto. Qed.
Lemma tidy_del : forall d n, tidy d -> tidy (ddel d n).
Proof. intros d n [d0 H]. constructor. intros m s E. rewrite dget_del in E. destruct (zlist_eqb n m); [discriminate|]. eauto. Qed.
Lemma tidy_class : forall d c, tidy d -> tidy (set_class d c).
Proof. intros d c [d0 H]. constructor. intros m s E. destruct d0. eauto. Qed.
Lemma tidy_sub : forall d n s, tidy d -> dget d n = Some (Sub s) -> plain n /\ tidy s.
Proof. intros d n s [d0 H] E. eauto. Qed.
Lemma tidy_storage : forall w d s, tidy d -> storage w d = Some s -> tidy s.
Proof.
  induction w as [|n r IH]; intros d s T E; cbn in E. { injection E as <-. auto. } destruct (dget d n) as [[|t]|] eqn:G; try discriminate. destruct (tidy_sub _ _ _ T G). eauto.
Qed.
Lemma tidy_empty : tidy empty_dir.
Proof. constructor. intros n s E. discriminate. Qed.
Lemma tidy_in_sub : forall d n k d', plain n -> (forall s s', tidy s -> k s = Ok s' -> tidy s') -> tidy d -> in_sub d n k = Ok d' -> tidy d'.
Proof.
  intros d n k d' P K T H. unfold in_sub in H. destruct (dget d n) as [[f|s]|] eqn:G; try discriminate.
  - destruct (k s) as [s'|] eqn:E; [|discriminate]. cbn in H. injection H as <-. destruct (tidy_sub _ _ _ T G). apply tidy_put_sub; auto. eapply K; eauto.
  - destruct (entry_name n); [|discriminate]. cbn in H. destruct (k empty_dir) as [s'|] eqn:E; [|discriminate]. cbn in H. injection H as <-. apply tidy_put_sub; auto. eapply K; [apply tidy_empty|eauto].
Qed.
Lemma tidy_within : forall d n k d', (forall s s', tidy s -> k s = Ok s' -> tidy s') -> tidy d -> within d n k = Ok d' -> tidy d'.
Proof.
  intros d n k d' K T H. unfold within in H. destruct (dget d n) as [[f|s]|] eqn:G; try discriminate. destruct (k s) as [s'|] eqn:E; [|discriminate]. cbn in H. injection H as <-. destruct (tidy_sub _ _ _ T G). apply tidy_put_sub; auto. eapply K; eauto.
Qed.

Definition child_gen (g : gen) : Prop := match g with GIndex _ => False | _ => gen_ok g end.
Lemma gen_plain : forall names g, child_gen g -> plain (gen_name names g).
Proof.
  intros names g H. split; [apply gen_last; destruct g; cbn in *; auto; tauto|]. assert (L : forall (a b : list Z) x, last (a ++ x :: b) 0 = last (x :: b) 0) by (intros; apply last_suffix).
  destruct g as [p|p|p k]; cbn [gen_name gen_ok child_gen] in *; [| destruct H |].
  - unfold mangle_name. cbn [app]. rewrite L. pose proof (hex_str_lower p H) as F. cbn [last]. assert (Hne : hex_str p <> []).
    { unfold hex_str. cbn [hex_go]. destruct (p <? 16); [discriminate|]. destruct (hex_go _ _); discriminate. }
    destruct (hex_str p) as [|c l] eqn:E; [congruence|]. destruct (exists_last Hne) as (a & x & Ea). rewrite Ea in F |- *. rewrite last_last. rewrite Forall_app in F. destruct F as [_ F]. inversion F as [|? ? X]; subst. unfold is_hex_lower in X. lia.
  - unfold element_storage. cbn [app]. rewrite L. change (123 :: hex_str k ++ [125]) with ((123 :: hex_str k) ++ [125]). rewrite last_last. lia.
Qed.
Lemma ready_plain : forall names cls props x n, ready names (Obj cls props) -> In x props -> In n (children (snd x)) -> plain n.
Proof.
  intros names cls props x n (H1 & H2 & H3) I J. rewrite every_Forall in H3. rewrite Forall_forall in H2, H3. destruct (H3 x I) as (PM & _). specialize (H2 x I). rewrite (children_gens _ _ _ _ _ PM) in J. apply in_map_iff in J. destruct J as (g & <- & J). apply gen_plain.
  destruct (gens_ok names (ready names) cls (fst x) (snd x)) as (G1 & _); [lia|auto|]. rewrite Forall_forall in G1. specialize (G1 g J).
  destruct (snd x) as [f da|da nm c|da nm o|da nm next last items|da nm next last kp ks items|f da i k s r|f da nm i k s r]; cbn [child_gens] in J; try (destruct J; fail); try (destruct J as [<-|[]]; auto); apply in_map_iff in J; destruct J as (y & <- & _); auto.
Qed.

Section Tidy.
Variable names : Z -> Z -> list Z.
Hypothesis NB : forall cls pid, Forall bmp (names cls pid).

Lemma tidy_attach : forall o d d', ready names o -> tidy d -> attach_obj names d o = Ok d' -> tidy d'.
Proof.
  intros o. induction o as [cls props IH] using obj_induct. intros d d' HR T H. cbn [attach_obj] in H. rewrite Forall_forall in IH.
  apply (each_inv _ _ _ tidy) in H; auto; [|apply tidy_class; auto]. intros x d1 d2 I T1 E.
  pose proof (ready_form names _ _ _ HR I) as PF. assert (PL : forall n, In n (children (snd x)) -> plain n) by (intros n; eapply ready_plain; eauto).
  assert (KP : forall n c s s', In (n, c) (kids (snd x)) -> tidy s -> attach_obj names s c = Ok s' -> tidy s').
  { intros n c s s' J. apply (below_kids _ _ _ _ (IH x I) J). exact (form_kids _ _ _ _ PF J). }
  clear - PF PL KP T1 E. destruct x as [pid p]. cbn [fst snd] in *.
  destruct p as [f da|da nm c|da nm o|da nm next last items|da nm next last kp ks items|f da i k s r|f da nm i k s r]; cbn [attach_prop prop_form] in *; try (injection E as <-; auto; fail).
  - destruct PF as (n & e1 & b & -> & _ & _ & _ & ->). destruct (dget d1 n); [discriminate|]. destruct (entry_name n); [|discriminate]. cbn in E. injection E as <-. apply tidy_put_file. auto.
  - destruct PF as (n & (-> & _) & PF). destruct o as [o|]; [|destruct PF]. eapply tidy_in_sub; [| |exact T1|exact E]. { apply PL. left. auto. } intros s s'. apply (KP n). left. auto.
  - destruct PF as (n & (-> & Hne & _) & PF). rewrite vec_name_some in E by auto. eapply each_inv; [|exact T1|exact E]. intros x e e' I TE X. eapply tidy_in_sub; [| |exact TE|exact X].
    + apply PL. cbn. apply in_map_iff. eauto.
    + intros s s'. apply (KP (element_storage n (fst x))). cbn. apply in_map_iff. eauto.
  - destruct PF as (n & size & (-> & _) & PF). cbn [text_of bind] in E. eapply each_inv; [|exact T1|exact E]. intros x e e' I TE X. eapply tidy_in_sub; [| |exact TE|exact X].
    + apply PL. cbn. apply in_map_iff. eauto.
    + intros s s'. apply (KP (element_storage n (fst (snd x)))). cbn. apply in_map_iff. eauto.
Qed.
Lemma tidy_detach : forall o d d', tidy d -> detach_obj o d = Ok d' -> tidy d'.
Proof.
  intros o. induction o as [cls props IH] using obj_induct. intros d d' T H. cbn [detach_obj] in H. rewrite Forall_forall in IH.
  apply (each_inv _ _ _ tidy) in H; auto. intros [pid p] d1 d2 I T1 E. specialize (IH _ I). cbn [snd] in *.
  destruct p as [f da|da [n|] c|da [n|] [o|]|da [n|] next last items|da [n|] next last kp ks items|f da i k s r|f da nm i k s r]; cbn [detach_prop below] in *; try discriminate; try (injection E as <-; auto; fail).
  - destruct (dget d1 n); [|discriminate]. injection E as <-. apply tidy_del. auto.
  - eapply tidy_within; eauto.
  - rewrite Forall_forall in IH. eapply each_inv; [|exact T1|exact E]. intros x e e' J TE X. eapply tidy_within; [|exact TE|exact X]. intros s s'. apply IH. auto.
  - rewrite Forall_forall in IH. eapply each_inv; [|exact T1|exact E]. intros x e e' J TE X. eapply tidy_within; [|exact TE|exact X]. intros s s'. apply IH. auto.
Qed.
Lemma tidy_index : forall cls pid p d d', tidy d -> index_prop names cls pid p d = Ok d' -> tidy d'.
Proof.
  intros cls pid p d d' T H.
  assert (P : forall n b, put_stream d n b = Ok d' -> tidy d') by (intros n b E; apply put_stream_ok in E; subst; apply tidy_put_file; auto).
  destruct p as [f da|da nm c|da nm o|da nm next last items|da nm next last kp ks items|f da i k s r|f da nm i k s r]; cbn [index_prop] in H; try (injection H as <-; auto; fail).
  - destruct (vec_write _ _ _) as [b|]; [|discriminate]. cbn [bind] in H. eauto.
  - destruct (text_of nm) as [n|]; [|discriminate]. destruct (num kp) as [k|]; [|discriminate]. destruct (num ks) as [z|]; [|discriminate]. cbn [bind] in H. destruct (set_write _) as [b|]; [|discriminate]. cbn [bind] in H. eauto.
  - destruct (text_of nm) as [n|]; [|discriminate]. destruct (num i) as [j|]; [|discriminate]. destruct (num k) as [q|]; [|discriminate]. destruct (num s) as [z|]; [|discriminate]. cbn [bind] in H. destruct (weaks_write _ _ _ _) as [b|]; [|discriminate]. cbn [bind] in H. eauto.
Qed.

(** An object whose numbers fit can be saved in a tidy storage. *)
Lemma save_total : forall cls props d, ready names (Obj cls props) -> fits (Obj cls props) -> tidy d -> exists d', save_obj names cls props d = Ok d' /\ tidy d'.
Proof.
  intros cls props d HR HT T. pose proof (ready_made _ _ HR) as HM. cbn [made fits] in HM, HT. destruct HM as (HN & HP & HM). destruct HT as (HL & HT). rewrite every_Forall in *. rewrite Forall_forall in *. unfold save_obj.
  assert (AO : all_of (fun x => do v <- prop_data names cls (fst x) (snd x) ;; Ok (fst x, prop_format (snd x), v)) props = Ok (map (fun x => (fst x, prop_format (snd x), data_of (snd x))) props)).
  { clear - HM. assert (HM' : forall x, In x props -> exists Q, prop_form Q (snd x)) by (intros x I; destruct (HM x I); eauto). clear HM. induction props as [|x l IHl]; auto. cbn [all_of map]. destruct (HM' x (or_introl eq_refl)) as (Q & F). rewrite (prop_data_ok names Q) by auto. cbn [bind]. fold (@all_of (Z * prop) (Z * Z * option (list Z))). rewrite IHl by (intros; apply HM'; right; auto). auto. }
  rewrite AO. cbn [bind]. destruct (C29_refuses [] (map (fun x => (fst x, prop_format (snd x), data_of (snd x))) props)) as [R _].
  unfold write_properties in R. destruct (encode_properties _) as [b|].
  2:{ exfalso. assert (X : Err e = Ok tt :> result unit); [|discriminate]. cbn [snd] in R. apply R. split; [rewrite zlen_map; auto|]. rewrite Forall_forall. intros y I. apply in_map_iff in I. destruct I as (x & <- & I).
      destruct (made_data names NB cls (fst x) (snd x)) as (e' & D & L); auto. cbn. split; [apply HP; auto|]. split; [|eauto]. destruct (HM x I) as (F & _). pose proof (form_format names _ _ F) as G. unfold formats in G. cbn in G. lia. }
  cbn [bind]. assert (PS : put_stream d (codes "properties") b = Ok (dput d (codes "properties") (File b))).
  { unfold put_stream. destruct (dget d (codes "properties")) as [[f|s]|] eqn:G; auto. exfalso. destruct (tidy_sub _ _ _ T G) as ((X & _) & _). apply X. reflexivity. }
  rewrite PS. cbn [bind]. apply (each_all _ _ _ tidy); [|apply tidy_put_file; auto].
  intros x d1 I T1. destruct (index_total names NB cls (fst x) (snd x) d1) as (d2 & E & _); auto.
  - intros n s J G. destruct (tidy_sub _ _ _ T1 G) as ((_ & X) & _). apply X. rewrite (indexes_gens _ _ _ _ _ (HM x I)) in J. apply in_map_iff in J. destruct J as (g & <- & J).
    assert (exists p, g = GIndex p) as (p & ->) by (destruct (snd x); cbn in J; try (destruct J; fail); destruct J as [<-|[]]; eauto). cbn [gen_name]. unfold index_stream. change (codes " index") with [32; 105; 110; 100; 101; 120]. rewrite last_suffix. reflexivity.
  - exists d2. split; auto. eapply tidy_index; eauto.
Qed.

Lemma tidy_path : forall A (k : dir -> obj -> result (dir * obj * A)) w d o d' o' a, at_path k w d o = Ok (d', o', a) -> tidy d ->
  (forall s c s' c', look w o = Some c -> k s c = Ok (s', c', a) -> tidy s -> tidy s') -> tidy d'.
Proof.
  intros A k. induction w as [|n r IH]; intros d o d' o' a H T HK; cbn [at_path] in H. { eapply HK; eauto. reflexivity. }
  destruct o as [cls props]. destruct (kid props n) as [c|] eqn:EK; [|discriminate]. destruct (dget d n) as [[|s]|] eqn:G; try discriminate. destruct (at_path k r s c) as [[[s' c'] a']|] eqn:E; [|discriminate]. cbn [bind] in H. injection H as <- <- <-.
  destruct (tidy_sub _ _ _ T G) as (P & TS). apply tidy_put_sub; auto. eapply IH; eauto. intros t b t' b' L. apply HK. cbn [look]. rewrite EK. auto.
Qed.

Lemma new_plain : forall cls props e props' gone new, ready names (Obj cls props) -> edit_fits names cls props e -> edit_props names cls props e = Ok (props', gone, new) -> Forall (fun x => plain (fst x)) new.
Proof.
  intros cls props e props' gone new HR HF H. pose proof HR as (R1 & R2 & R3). rewrite every_Forall in R3. rewrite Forall_forall in R2, R3.
  assert (G3 : forall A B C (x : A) (y : B) (z : C) a b c, Ok (x, y, z) = Ok (a, b, c) -> z = c) by (intros; congruence).
  assert (RF : forall pid, 0 <= pid -> plain (mangle_name (names cls pid) pid 32)) by (intros pid Hp; apply (gen_plain (names cls) (GRef pid)); auto).
  assert (EL : forall pid k, 0 <= pid -> 0 <= k -> plain (element_storage (mangle_name (names cls pid) pid 22) k)) by (intros pid k Hp Hk; apply (gen_plain (names cls) (GElem pid k)); cbn; auto).
  destruct e as [pid p|pid|pid o loaded|pid o|pid i o|pid i|pid i o|pid|pid kpid ksize key o loaded|pid key]; cbn [edit_props edit_fits] in *.
  - apply G3 in H. subst new. auto.
  - apply G3 in H. subst new. auto.
  - destruct HF as (HP & _). destruct (dict_get Z.eqb props pid) as [[| |d [n|] old| | | |]|] eqn:EG; try discriminate.
    + apply G3 in H. subst new. constructor; auto. cbn. apply dict_get_In in EG. destruct (R3 _ EG) as ((_ & X) & _). cbn in X. injection X as ->. apply RF. lia.
    + destruct (encode_utf16le _) as [e|]; [|discriminate]. cbn [bind] in H. apply G3 in H. subst new. constructor; auto. apply RF. lia.
  - destruct HF as (HP & _). destruct (dict_get Z.eqb props pid) as [[| | |d [n|] next last items| | |]|] eqn:EG; try discriminate.
    + apply G3 in H. subst new. constructor; auto. cbn. apply dict_get_In in EG. destruct (R3 _ EG) as ((_ & X & _) & Y & _). cbn in X, Y. injection X as ->. apply EL; lia.
    + destruct (encode_utf16le _) as [e|]; [|discriminate]. cbn [bind] in H. apply G3 in H. subst new. constructor; auto. apply EL; lia.
  - destruct HF as (HP & _). destruct (dict_get Z.eqb props pid) as [[| | |d [n|] next last items| | |]|] eqn:EG; try discriminate.
    + destruct ((0 <=? i) && (i <=? zlen items)); [|discriminate]. cbn [bind] in H. apply G3 in H. subst new. constructor; auto. cbn. apply dict_get_In in EG. destruct (R3 _ EG) as ((_ & X & _) & Y & _). cbn in X, Y. injection X as ->. apply EL; lia.
    + apply G3 in H. subst new. constructor; auto. apply EL; lia.
  - destruct (dict_get Z.eqb props pid) as [[| | |d [n|] next last items| | |]|] eqn:EG; try discriminate. destruct (0 <=? i); [|discriminate]. cbn [bind] in H. destruct (znth items i) as [[k ok]|]; [|discriminate]. apply G3 in H. subst new. auto.
  - destruct HF as (HP & _). destruct (dict_get Z.eqb props pid) as [[| | |d [n|] next last items| | |]|] eqn:EG; try discriminate. destruct (0 <=? i); [|discriminate]. cbn [bind] in H. destruct (znth items i) as [[k ok]|] eqn:EZ; [|discriminate]. apply G3 in H. subst new. constructor; auto. cbn.
    apply dict_get_In in EG. destruct (R3 _ EG) as ((_ & X & _ & Y) & _). cbn in X, Y. injection X as ->. apply EL; [lia|]. rewrite Forall_forall in Y. apply (Y (k, ok)). eapply znth_In; eauto.
  - destruct (dict_get Z.eqb props pid) as [[| | |d [n|] next last items|d [n|] next last kp ks items| |]|] eqn:EG; try discriminate; apply G3 in H; subst new; auto.
  - destruct HF as (HP & _). destruct (dict_get Z.eqb props pid) as [[| | | |d [n|] next last kp ks items| |]|] eqn:EG; try discriminate.
    + apply dict_get_In in EG. destruct (R3 _ EG) as ((_ & X & _ & Y) & Z & _). cbn in X, Y, Z. injection X as ->. destruct (dict_get zlist_eqb items key) as [[k ok]|] eqn:EK; apply G3 in H; subst new; constructor; auto; cbn; apply EL; try lia.
      rewrite Forall_forall in Y. apply (Y (key, (k, ok))). clear - EK. induction items as [|[u v] l IH]; cbn in *; [discriminate|]. destruct (zlist_eqb u key) eqn:E; auto. apply zlist_eqb_spec in E. left. congruence.
    + destruct (encode_utf16le _) as [e|]; [|discriminate]. cbn [bind] in H. apply G3 in H. subst new. constructor; auto. apply EL; lia.
  - destruct (dict_get Z.eqb props pid) as [[| | | |d [n|] next last kp ks items| |]|] eqn:EG; try discriminate. destruct (dict_get zlist_eqb items key) as [[k ok]|] eqn:EK; [|discriminate]. apply G3 in H. subst new. auto.
Qed.

Lemma look_ready : forall w o c, ready names o -> look w o = Some c -> ready names c.
Proof.
  induction w as [|n r IH]; intros o c HR HL; cbn in HL. { injection HL as <-. auto. } destruct o as [cls props]. destruct (kid props n) as [c1|] eqn:EK; [|discriminate]. destruct (kid_in _ _ _ EK) as (x & I & J). eapply IH; [|exact HL]. exact (form_kids _ _ _ _ (ready_form _ _ _ _ HR I) J).
Qed.
Lemma look_fits : forall w o c, fits o -> look w o = Some c -> fits c.
Proof.
  induction w as [|n r IH]; intros o c HR HL; cbn [look] in HL. { injection HL as <-. auto. } destruct o as [cls props]. destruct (kid props n) as [c1|] eqn:EK; [|discriminate]. destruct (kid_in _ _ _ EK) as (x & I & J). eapply IH; [|exact HL].
  cbn [fits] in HR. destruct HR as (_ & HR). rewrite every_Forall, Forall_forall in HR. specialize (HR x I). clear - HR J.
  destruct (snd x) as [f da|da [m|] c|da [m|] [o|]|da [m|] next last items|da [m|] next last kp ks items|f da i k s r|f da nm i k s r]; cbn [kids prop_fits] in *; try (destruct J; fail).
  - destruct J as [[= <- <-]|[]]. auto.
  - destruct HR as (_ & _ & _ & _ & HR). rewrite every_Forall, Forall_forall in HR. apply in_map_iff in J. destruct J as (y & [= <- <-] & J). auto.
  - destruct HR as (_ & _ & _ & _ & _ & HR). rewrite every_Forall, Forall_forall in HR. apply in_map_iff in J. destruct J as (y & [= <- <-] & J). auto.
Qed.
Lemma resolves_look : forall w o, resolves w o = true -> exists c, look w o = Some c.
Proof.
  induction w as [|n r IH]; intros [cls props] H; cbn in *; eauto. destruct (kid props n); [|discriminate]. auto.
Qed.

Lemma save_tidy : forall cls props d d', tidy d -> save_obj names cls props d = Ok d' -> tidy d'.
Proof.
  intros cls props d d' T H. unfold save_obj in H. destruct (all_of _ props) as [es|]; [|discriminate]. cbn [bind] in H. destruct (encode_properties es) as [b|]; [|discriminate]. cbn [bind] in H. destruct (put_stream d _ b) as [d2|] eqn:E; [|discriminate]. cbn [bind] in H. apply put_stream_ok in E.
  subst d2. eapply each_inv; [|apply tidy_put_file; exact T|exact H]. intros x e e' _ TE. apply tidy_index. auto.
Qed.

Lemma act_tidy : forall s a s', good names s -> action_fits names s a -> tidy (s_dir s) -> act names s a = Ok s' -> tidy (s_dir s').
Proof.
  intros s a s' (HR & HS) HF T H. destruct a as [w e|w pid b|]; cbn [act action_fits] in *.
  - destruct (at_path _ w _ _) as [[[d o] [gone new]]|] eqn:EA; [|discriminate]. cbn [bind] in H. injection H as <-. cbn [s_dir]. eapply tidy_path; [exact EA|exact T|]. intros t c t' c' HL K TT. pose proof (look_ready _ _ _ HR HL) as RC. destruct c as [cls props]. specialize (HF _ _ HL).
    cbn [edit_obj] in K. destruct (edit_props names cls props e) as [[[props' g] nw]|] eqn:EP; [|discriminate]. cbn [bind] in K.
    destruct (each _ g t) as [d1|] eqn:E1; [|discriminate]. cbn [bind] in K. destruct (each _ nw d1) as [d2|] eqn:E2; [|discriminate]. cbn [bind] in K. injection K as <- <- <- <-.
    pose proof (new_plain _ _ _ _ _ _ RC HF EP) as NP. destruct (edit_props_ok names NB _ _ _ _ _ _ RC HF EP) as (_ & _ & RN). rewrite Forall_forall in NP, RN.
    eapply each_inv; [| |exact E2].
    + intros x e1 e2 I TE X. apply (tidy_in_sub _ _ _ _ (NP x I)) in X; auto. intros s1 s2. apply tidy_attach. apply RN. auto.
    + eapply each_inv; [|exact TT|exact E1]. intros n e1 e2 I TE X. cbn beta in X. destruct (kid props n) as [c|]; [|discriminate]. eapply tidy_within; [|exact TE|exact X]. apply tidy_detach.
  - destruct (at_path _ w _ _) as [[[d o] u]|] eqn:EA; [|discriminate]. cbn [bind] in H. injection H as <-. cbn [s_dir]. eapply tidy_path; [exact EA|exact T|]. intros t c t' c' HL K TT. destruct c as [cls props]. cbn [edit_stream] in K.
    match type of K with context [match dict_get Z.eqb props pid with _ => _ end] => destruct (match dict_get Z.eqb props pid with Some (PStream data (Some n) _) => Ok (data, n) | None => let n := mangle_name (names cls pid) pid 32 in do e <- stream_data n ;; Ok (Some e, n) | _ => Err TypeError end) as [[data n]|]; [|discriminate] end.
    cbn [bind] in K. destruct (put_stream t n b) as [d1|] eqn:EP; [|discriminate]. cbn [bind] in K. injection K as <- _ _. apply put_stream_ok in EP. subst d1. apply tidy_put_file. auto.
  - unfold save_all in H. destruct (each _ _ _) as [[d o]|] eqn:E; [|discriminate]. cbn [bind] in H. injection H as <-. cbn [s_dir].
    apply (each_inv _ _ _ (fun st => tidy (fst st))) in E; auto. intros w [d1 o1] [d2 o2] _ T1 X. cbn [fst snd] in *. destruct (resolves w o1); [|congruence]. destruct (at_path _ w d1 o1) as [[[d3 o3] u]|] eqn:EA; [|discriminate]. cbn [bind] in X. injection X as <- <-.
    eapply tidy_path; [exact EA|exact T1|]. intros t c t' c' _ K TT. cbn beta in K. destruct (save_here names t c) as [t1|] eqn:ES; [|discriminate]. cbn in K. injection K as <- _ _. destruct c as [cls props]. eapply save_tidy; eauto.
Qed.
Lemma steps_tidy : forall s s', steps names s s' -> good names s -> tidy (s_dir s) -> tidy (s_dir s').
Proof. induction 1 as [s|s a s' s'' HF H HS IH]; auto. intros G T. apply IH. { eapply act_good; eauto. } eapply act_tidy; eauto. Qed.
End Tidy.

(** A new file is tidy. *)
Theorem C65_new_tidy : forall names o s, ready names o -> create names o = Ok s -> tidy (s_dir s).
Proof.
  intros names o s HR H. unfold create in H. destruct (attach_obj names empty_dir o) as [d|] eqn:E; [|discriminate]. cbn in H. injection H as <-. cbn. eapply tidy_attach; eauto. apply tidy_empty.
Qed.

(** Saving never fails as long as the numbers of all objects fit the formats and no storage of a file that
    was opened has the name of a stream. *)
Theorem C65_saves : forall names s0 s, (forall cls pid, Forall bmp (names cls pid)) -> start names s0 -> tidy (s_dir s0) -> steps names s0 s -> fits (s_obj s) ->
  exists s', act names s ASave = Ok s'.
Proof.
  intros names s0 s NB HS HT HP HF. apply start_good in HS. pose proof (steps_good names NB _ _ HP HS) as (HR & HG). pose proof (steps_tidy names NB _ _ HP HS HT) as T.
  cbn [act]. unfold save_all.
  destruct (each_all _ _ (fun w st => if resolves w (snd st) then
        do (d', o', u) <- at_path (fun d o => do d' <- save_here names d o ;; Ok (d', o, tt)) w (fst st) (snd st) ;; Ok (d', o')
      else Ok st) (fun st => tidy (fst st) /\ snd st = s_obj s /\ sync names (fun _ => True) (fst st) (snd st)) (s_mod s) (s_dir s, s_obj s)) as ([d o] & E & _).
  - intros w [d o] _ (T1 & E1 & S1). cbn [fst snd] in *. subst o. destruct (resolves w (s_obj s)) eqn:ER; [|exists (d, s_obj s); cbn; auto].
    destruct (resolves_look _ _ ER) as (c & HL). destruct (at_path_total names _ (fun d o => do d' <- save_here names d o ;; Ok (d', o, tt)) w _ _ _ _ HR S1 HL) as (t & G & RC & SC & K).
    destruct c as [cls props]. destruct (save_total names NB cls props t RC (look_fits _ _ _ HF HL) (tidy_storage _ _ _ T1 G)) as (t' & ES & TT). destruct (K t' (Obj cls props) tt) as (d' & o' & EA). { cbn. rewrite ES. auto. }
    rewrite EA. cbn [bind]. exists (d', o'). split; auto. cbn [fst snd]. split; [|split].
    + eapply tidy_path; [exact EA|exact T1|]. intros t1 c1 t2 c2 _ X TT1. cbn beta in X. destruct (save_here names t1 c1) as [t3|] eqn:E3; [|discriminate]. cbn in X. injection X as <- _. destruct c1 as [cls1 props1]. eapply save_tidy; eauto.
    + eapply at_path_same; [|exact HR|exact EA]. intros s1 c1 s2 c2 X. cbn in X. destruct (save_here names s1 c1); [|discriminate]. cbn in X. congruence.
    + apply (at_path_sync names _ _ w (fun _ => True) (fun _ => True) d (s_obj s) d' o' tt EA HR S1); auto.
      intros s1 c1 s2 c2 _ X R1 Y. cbn beta in X. destruct (save_here names s1 c1) as [s3|] eqn:E3; [|discriminate]. cbn in X. injection X as <- <-. split; auto. destruct c1 as [cls1 props1]. eapply save_sync; eauto.
  - cbn [fst snd]. split; auto. split; auto. eapply sync_weaken; [exact HG|auto].
  - rewrite E. cbn [bind]. eauto.
Qed.
Print Assumptions C65_new_tidy. Print Assumptions C65_saves.

(** ** What is left of objects that were taken out *)

(** Specification: the changes that detach the objects they take out. *)
Definition detaches (e : edit) : Prop :=
  match e with EPop _ _ | EAssign _ _ _ | EClear _ | ERemove _ _ => True | ERef _ _ loaded | EAdd _ _ _ _ _ loaded => loaded = true | _ => False end.

Lemma dict_get_zIn : forall A (l : list (list Z * A)) k v, dict_get zlist_eqb l k = Some v -> In (k, v) l.
Proof. induction l as [|[u v'] l IH]; intros k v H; cbn in *; [discriminate|]. destruct (zlist_eqb u k) eqn:E; auto. apply zlist_eqb_spec in E. left. congruence. Qed.
Lemma zIn_dict_get : forall A (l : list (list Z * A)) k v, NoDup (map fst l) -> In (k, v) l -> dict_get zlist_eqb l k = Some v.
Proof.
  induction l as [|[u v'] l IH]; intros k v N I; [destruct I|]. cbn in N. apply NoDup_cons_iff in N. destruct N as [N1 N2]. cbn. destruct I as [[= -> ->]|I]. { rewrite zlist_eqb_refl. auto. }
  destruct (zlist_eqb u k) eqn:E; auto. apply zlist_eqb_spec in E. subst u. exfalso. apply N1. apply in_map_iff. exists (k, v). auto.
Qed.
Lemma In_dict_get_Z : forall (l : list (Z * prop)) k v, NoDup (map fst l) -> In (k, v) l -> dict_get Z.eqb l k = Some v.
Proof.
  induction l as [|[u v'] l IH]; intros k v N I; [destruct I|]. cbn in N. apply NoDup_cons_iff in N. destruct N as [N1 N2]. cbn. destruct I as [[= -> ->]|I]. { rewrite Z.eqb_refl. auto. }
  destruct (u =? k) eqn:E; auto. apply Z.eqb_eq in E. subst u. exfalso. apply N1. apply in_map_iff. exists (k, v). auto.
Qed.
Lemma in_set_same : forall (l : list (Z * prop)) k v, In (k, v) (dict_set Z.eqb l k v).
Proof. induction l as [|[u w] l IH]; intros k v; cbn; auto. destruct (u =? k) eqn:E; [left; f_equal; lia|right; auto]. Qed.
Lemma in_set_other : forall (l : list (Z * prop)) k v q w, q <> k -> In (q, w) l -> In (q, w) (dict_set Z.eqb l k v).
Proof.
  induction l as [|[u x] l IH]; intros k v q w N I; [destruct I|]. cbn. destruct I as [E|I].
  - injection E as -> ->. replace (q =? k) with false by lia. left. auto.
  - destruct (u =? k) eqn:E; right; auto.
Qed.

Lemma gone_all : forall names cls props e props' gone new, (forall cls pid, Forall bmp (names cls pid)) -> ready names (Obj cls props) -> edit_fits names cls props e -> edit_props names cls props e = Ok (props', gone, new) -> detaches e ->
  NoDup gone /\ (forall n, In n gone -> exists c, kid props n = Some c) /\ (forall n c, kid props n = Some c -> kid props' n = Some c \/ In n gone) /\
  (forall n o, In (n, o) new -> kid props' n = Some o) /\ (forall n o c, In (n, o) new -> kid props n = Some c -> In n gone).
Proof.
  intros names cls props e props' gone new NB HR HF H HD. pose proof (ready_distinct _ _ _ HR) as DI. destruct (edit_props_ok names NB _ _ _ _ _ _ HR HF H) as (HR' & _ & _). pose proof (ready_distinct _ _ _ HR') as DI'.
  pose proof HR as (R1 & R2 & R3). rewrite every_Forall in R3. rewrite Forall_forall in R2, R3.
  assert (G3 : forall A B C (x : A) (y : B) (z : C) a b c, Ok (x, y, z) = Ok (a, b, c) -> x = a /\ y = b /\ z = c) by (intros; repeat split; congruence).
  assert (PUT : forall pid p' n c, dict_set Z.eqb props pid p' = props' -> In (n, c) (kids p') -> kid props' n = Some c).
  { intros pid p' n c <- I. apply (kid_some _ (pid, p')); auto. apply in_set_same. }
  assert (ONE : forall pid p', dict_set Z.eqb props pid p' = props' -> forall n c, kid props n = Some c -> kid props' n = Some c \/ exists p, dict_get Z.eqb props pid = Some p /\ In (n, c) (kids p)).
  { intros pid p' EP n c K. destruct (kid_in _ _ _ K) as ([q v] & I & J). cbn [snd] in J. destruct (Z.eq_dec q pid) as [->|NQ].
    - right. exists v. split; auto. apply (In_dict_get_Z props pid v); auto.
    - left. apply (kid_some props' (q, v)); auto. subst props'. apply in_set_other; auto. }
  assert (GEN : forall g n c, n = gen_name (names cls) g -> gen_ok g -> kid props n = Some c -> exists p, dict_get Z.eqb props (gpid g) = Some p /\ In (n, c) (kids p)).
  { intros g n c EN GO K. destruct (kid_in _ _ _ K) as ([q v] & I & J). destruct (ready_child names NB cls props _ n HR I (kids_children _ _ _ J)) as (g' & EN' & GO' & GP). cbn [fst snd] in *. assert (g = g') by (apply (gen_inj (names cls)); congruence). subst g'. exists v. split; auto. rewrite GP. apply (In_dict_get_Z props q v); auto. }
  assert (KID : forall pid p n c, dict_get Z.eqb props pid = Some p -> In (n, c) (kids p) -> kid props n = Some c).
  { intros pid p n c EG I. apply (kid_some props (pid, p)); auto. apply dict_get_In. auto. }
  destruct e as [pid p|pid|pid o loaded|pid o|pid i o|pid i|pid i o|pid|pid kpid ksize key o loaded|pid key]; cbn [edit_props detaches edit_fits] in *; try (destruct HD; fail).
  - subst loaded. destruct (dict_get Z.eqb props pid) as [[| |d [n|] old| | | |]|] eqn:EG; try discriminate.
    + apply G3 in H. destruct H as (H & <- & <-). split; [destruct old; constructor; auto; constructor|]. split; [|split; [|split]].
      * intros m I. destruct old as [old|]; [|destruct I]. destruct I as [<-|[]]. exists old. eapply KID; eauto. left. auto.
      * intros m c K. destruct (ONE _ _ H m c K) as [X|(p & X & J)]; auto. right. rewrite EG in X. injection X as <-. destruct old as [old|]; [|destruct J]. destruct J as [[= <- <-]|[]]. left. auto.
      * intros m b [[= <- <-]|[]]. eapply PUT; eauto. left. auto.
      * intros m b c [[= <- <-]|[]] K. destruct (R3 _ (dict_get_In _ _ _ EG)) as ((_ & X) & _). cbn in X. injection X as ->. destruct (GEN (GRef pid) _ c eq_refl) as (p & X & J); auto. { cbn. lia. } cbn in X. rewrite EG in X. injection X as <-. destruct old as [old|]; [|destruct J]. left. auto.
    + destruct (encode_utf16le _) as [e|]; [|discriminate]. cbn [bind] in H. apply G3 in H. destruct H as (H & <- & <-). split; [constructor|]. split; [intros n []|]. split; [|split].
      * intros m c K. destruct (ONE _ _ H m c K) as [X|(p & X & J)]; auto. congruence.
      * intros m b [[= <- <-]|[]]. eapply PUT; eauto. left. auto.
      * intros m b c [[= <- <-]|[]] K. destruct (GEN (GRef pid) _ c eq_refl) as (p & X & J); auto. { cbn. lia. } cbn in X. congruence.
  - destruct (dict_get Z.eqb props pid) as [[| | |d [n|] next last items| | |]|] eqn:EG; try discriminate. destruct (0 <=? i); [|discriminate]. cbn [bind] in H. destruct (znth items i) as [[k ok]|] eqn:EZ; [|discriminate]. apply G3 in H. destruct H as (H & <- & <-). split; [constructor; [intros []|constructor]|]. split; [|split; [|split; [intros m b []|intros m b c' []]]].
    + intros m [<-|[]]. exists ok. eapply KID; eauto. cbn. apply in_map_iff. exists (k, ok). split; auto. eapply znth_In; eauto.
    + intros m c K. destruct (ONE _ _ H m c K) as [X|(p & X & J)]; auto. rewrite EG in X. injection X as <-. cbn [kids] in J. apply in_map_iff in J. destruct J as (x & [= <- <-] & J). destruct (znth_split _ _ _ _ EZ) as (SP & _). rewrite SP in J. apply in_app_or in J. destruct J as [J|[<-|J]]; [| right; left; auto |];
      left; eapply PUT; eauto; cbn; apply in_map_iff; exists x; split; auto; unfold drop_at; apply in_or_app; auto.
  - destruct (dict_get Z.eqb props pid) as [[| | |d [n|] next last items| | |]|] eqn:EG; try discriminate. destruct (0 <=? i); [|discriminate]. cbn [bind] in H. destruct (znth items i) as [[k ok]|] eqn:EZ; [|discriminate]. apply G3 in H. destruct H as (H & <- & <-). split; [constructor; [intros []|constructor]|]. split; [|split; [|split]].
    + intros m [<-|[]]. exists ok. eapply KID; eauto. cbn. apply in_map_iff. exists (k, ok). split; auto. eapply znth_In; eauto.
    + intros m c K. destruct (ONE _ _ H m c K) as [X|(p & X & J)]; auto. rewrite EG in X. injection X as <-. cbn [kids] in J. apply in_map_iff in J. destruct J as (x & [= <- <-] & J). pose proof (zupd_split _ _ _ _ (k, o) EZ) as SU. destruct (znth_split _ _ _ _ EZ) as (SP & _). rewrite SP in J. apply in_app_or in J. destruct J as [J|[<-|J]]; [| right; left; auto |];
      left; eapply PUT; eauto; cbn; apply in_map_iff; exists x; split; auto; rewrite SU; apply in_or_app; auto. right. right. auto.
    + intros m b [[= <- <-]|[]]. eapply PUT; eauto. cbn. apply in_map_iff. exists (k, o). split; auto. rewrite (zupd_split _ _ _ _ (k, o) EZ). apply in_or_app. right. left. auto.
    + intros m b c [[= <- <-]|[]] _. left. auto.
  - destruct (dict_get Z.eqb props pid) as [[| | |d [n|] next last items|d [n|] next last kp ks items| |]|] eqn:EG; try discriminate; apply G3 in H; destruct H as (H & <- & <-); pose proof (distinct_kids props _ DI (dict_get_In _ _ _ EG)) as ND; cbn [snd children] in ND; (split; [exact ND|]); (split; [|split; [|split; [intros m b []|intros m b c' []]]]).
    + intros m I. apply in_map_iff in I. destruct I as (x & <- & I). exists (snd x). eapply KID; eauto. cbn. apply in_map_iff. exists x. auto.
    + intros m c K. destruct (ONE _ _ H m c K) as [X|(p & X & J)]; auto. rewrite EG in X. injection X as <-. cbn [kids] in J. apply in_map_iff in J. destruct J as (x & [= <- <-] & J). right. apply in_map_iff. eauto.
    + intros m I. apply in_map_iff in I. destruct I as (x & <- & I). exists (snd (snd x)). eapply KID; eauto. cbn. apply in_map_iff. exists x. auto.
    + intros m c K. destruct (ONE _ _ H m c K) as [X|(p & X & J)]; auto. rewrite EG in X. injection X as <-. cbn [kids] in J. apply in_map_iff in J. destruct J as (x & [= <- <-] & J). right. apply in_map_iff. eauto.
  - subst loaded. destruct (dict_get Z.eqb props pid) as [[| | | |d [n|] next last kp ks items| |]|] eqn:EG; try discriminate.
    + pose proof (ready_form names _ _ _ HR (dict_get_In _ _ _ EG)) as PF. cbn in PF. assert (NK : NoDup (map fst items)) by (destruct PF as (? & ? & PF); tauto). clear PF. destruct (R3 _ (dict_get_In _ _ _ EG)) as ((_ & EN & _ & K0) & N0 & KN). cbn in EN, K0, N0, KN. injection EN as ->. rewrite Forall_forall in K0, KN.
      destruct (dict_get zlist_eqb items key) as [[k ok]|] eqn:EK; apply G3 in H; destruct H as (H & <- & <-).
      * split; [constructor; [intros []|constructor]|]. split; [|split; [|split]].
        -- intros m [<-|[]]. exists ok. eapply KID; eauto. cbn. apply in_map_iff. exists (key, (k, ok)). split; auto. apply dict_get_zIn. auto.
        -- intros m c K. destruct (ONE _ _ H m c K) as [X|(p & X & J)]; auto. rewrite EG in X. injection X as <-. cbn [kids] in J. apply in_map_iff in J. destruct J as ([u [j b]] & [= <- <-] & J). cbn [fst snd] in *. destruct (zlist_eqb key u) eqn:Z.
           ++ apply zlist_eqb_spec in Z. subst u. pose proof (zIn_dict_get _ _ _ _ NK J) as X. right. left. congruence.
           ++ left. eapply PUT; eauto. cbn. apply in_map_iff. exists (u, (j, b)). split; auto. apply dict_get_zIn. rewrite zget_set, Z. apply zIn_dict_get; auto.
        -- intros m b [[= <- <-]|[]]. eapply PUT; eauto. cbn. apply in_map_iff. exists (key, (k, o)). split; auto. apply dict_get_zIn. rewrite zget_set, zlist_eqb_refl. auto.
        -- intros m b c [[= <- <-]|[]] _. left. auto.
      * split; [constructor|]. split; [intros m []|]. split; [|split].
        -- intros m c K. destruct (ONE _ _ H m c K) as [X|(p & X & J)]; auto. rewrite EG in X. injection X as <-. left. eapply PUT; eauto. cbn [kids] in *. rewrite map_app. apply in_or_app. auto.
        -- intros m b [[= <- <-]|[]]. eapply PUT; eauto. cbn. rewrite map_app. apply in_or_app. right. left. auto.
        -- intros m b c [[= <- <-]|[]] K. exfalso. destruct (GEN (GElem pid next) _ c eq_refl) as (p & X & J); auto. { cbn. lia. } cbn in X. rewrite EG in X. injection X as <-. cbn [kids] in J. apply in_map_iff in J. destruct J as (x & EQ & J). injection EQ as EQ _.
           specialize (K0 x J). specialize (KN x J). cbn beta in K0, KN. apply (gen_inj (names cls) (GElem pid _) (GElem pid _)) in EQ; [|cbn; lia|cbn; lia]. injection EQ as EQ. lia.
    + destruct (encode_utf16le _) as [e|]; [|discriminate]. cbn [bind] in H. apply G3 in H. destruct H as (H & <- & <-). split; [constructor|]. split; [intros n []|]. split; [|split].
      * intros m c K. destruct (ONE _ _ H m c K) as [X|(p & X & J)]; auto. congruence.
      * intros m b [[= <- <-]|[]]. eapply PUT; eauto. left. auto.
      * intros m b c [[= <- <-]|[]] K. destruct (GEN (GElem pid 0) _ c eq_refl) as (p & X & J); auto. { cbn. lia. } cbn in X. congruence.
  - destruct (dict_get Z.eqb props pid) as [[| | | |d [n|] next last kp ks items| |]|] eqn:EG; try discriminate. destruct (dict_get zlist_eqb items key) as [[k ok]|] eqn:EK; [|discriminate]. apply G3 in H. destruct H as (H & <- & <-).
    pose proof (ready_form names _ _ _ HR (dict_get_In _ _ _ EG)) as PF. cbn in PF. assert (NK : NoDup (map fst items)) by (destruct PF as (? & ? & PF); tauto). clear PF. split; [constructor; [intros []|constructor]|]. split; [|split; [|split; [intros m b []|intros m b c' []]]].
    + intros m [<-|[]]. exists ok. eapply KID; eauto. cbn. apply in_map_iff. exists (key, (k, ok)). split; auto. apply dict_get_zIn. auto.
    + intros m c K. destruct (ONE _ _ H m c K) as [X|(p & X & J)]; auto. rewrite EG in X. injection X as <-. cbn [kids] in J. apply in_map_iff in J. destruct J as ([u [j b]] & [= <- <-] & J). cbn [fst snd] in *. destruct (zlist_eqb key u) eqn:Z.
      * apply zlist_eqb_spec in Z. subst u. pose proof (zIn_dict_get _ _ _ _ NK J) as X. right. left. congruence.
      * left. eapply PUT; eauto. cbn. apply in_map_iff. exists (u, (j, b)). split; auto. apply dict_get_zIn. rewrite zget_filter, Z. apply zIn_dict_get; auto.
Qed.

Lemma attach_new : forall names new d d2 n o t, NoDup (map fst new) -> each (fun x d => in_sub d (fst x) (fun s => attach_obj names s (snd x))) new d = Ok d2 -> In (n, o) new -> dget d n = Some (Sub t) ->
  exists t', attach_obj names t o = Ok t' /\ dget d2 n = Some (Sub t').
Proof.
  intros names. induction new as [|[m b] l IH]; intros d d2 n o t N H I G; [destruct I|]. cbn in N. apply NoDup_cons_iff in N. destruct N as [N1 N2]. cbn in H. destruct (in_sub d m _) as [d1|] eqn:E; [|discriminate]. cbn [bind] in H.
  destruct I as [[= -> ->]|I].
  - unfold in_sub in E. rewrite G in E. destruct (attach_obj names t o) as [t'|] eqn:EA; [|discriminate]. cbn in E. injection E as <-. exists t'. split; auto.
    apply (each_within _ _ (fun x => [fst x])) in H. { destruct H as (_ & H). rewrite H; [apply get_put_same|]. intros X. apply N1. apply in_flat_map in X. destruct X as (y & J & [<-|[]]). apply in_map. auto. }
    intros x e e' X. apply in_sub_ok in X. destruct X as (s & s' & _ & ->). apply frame_put.
  - eapply IH; eauto. apply in_sub_ok in E. destruct E as (s & s' & _ & ->). rewrite dget_put. destruct (zlist_eqb m n) eqn:Z; auto. apply zlist_eqb_spec in Z. subst m. exfalso. apply N1. apply in_map_iff. exists (n, o). auto.
Qed.

Lemma storage_app : forall w v d, storage (w ++ v) d = match storage w d with Some s => storage v s | None => None end.
Proof. induction w as [|n r IH]; intros v d; cbn; auto. destruct (dget d n) as [[|s]|]; auto. Qed.
Lemma at_path_storage : forall A (k : dir -> obj -> result (dir * obj * A)) w d o d' o' a, at_path k w d o = Ok (d', o', a) ->
  exists s c s' c', storage w d = Some s /\ look w o = Some c /\ k s c = Ok (s', c', a) /\ storage w d' = Some s' /\ look w o' = Some c'.
Proof.
  intros A k. induction w as [|n r IH]; intros d o d' o' a H; cbn [at_path] in H. { exists d, o, d', o'. auto. }
  destruct o as [cls props]. destruct (kid props n) as [c|] eqn:EK; [|discriminate]. destruct (dget d n) as [[|s]|] eqn:G; try discriminate. destruct (at_path k r s c) as [[[s' c'] a']|] eqn:E; [|discriminate]. cbn [bind] in H. injection H as <- <- <-.
  destruct (IH _ _ _ _ _ E) as (t & b & t' & b' & X1 & X2 & X3 & X4 & X5). exists t, b, t', b'. cbn [storage look]. rewrite G, EK, get_put_same, kid_put, zlist_eqb_refl, EK. auto.
Qed.

(** An object that was taken out leaves its storage without streams; one that takes its place is attached to
    that. The storages of all other objects below stay as they are. *)
Theorem C65_removed : forall names s0 s w e s' cls props props' n c, (forall cls pid, Forall bmp (names cls pid)) -> start names s0 -> steps names s0 s -> action_fits names s (AEdit w e) -> detaches e ->
  act names s (AEdit w e) = Ok s' -> look w (s_obj s) = Some (Obj cls props) -> look w (s_obj s') = Some (Obj cls props') -> kid props n = Some c ->
  exists t t', storage (w ++ [n]) (s_dir s) = Some t /\ storage (w ++ [n]) (s_dir s') = Some t' /\
    match kid props' n with
    | None => stripped c t t'
    | Some c' => (c' = c /\ t' = t) \/ exists t1, stripped c t t1 /\ attach_obj names t1 c' = Ok t'
    end.
Proof.
  intros names s0 s w e s' cls props props' n c NB H0 HP HF HD HA HL HL' HK. apply start_good in H0. apply (steps_good names NB _ _ HP) in H0. destruct H0 as (HR & HS).
  cbn [act action_fits] in *. specialize (HF _ _ HL). destruct (at_path _ w _ _) as [[[d o] [gone new]]|] eqn:EA; [|discriminate]. cbn [bind] in HA. injection HA as <-. cbn [s_dir s_obj] in *.
  destruct (at_path_total names _ (edit_obj names e) w _ _ _ _ HR HS HL) as (t & G & RC & SC & _).
  destruct (at_path_storage _ _ _ _ _ _ _ _ EA) as (t0 & c0 & t2 & c2 & X1 & X2 & X3 & X4 & X5). rewrite G in X1. injection X1 as <-. rewrite HL in X2. injection X2 as <-. rewrite HL' in X5. injection X5 as <-.
  cbn [edit_obj] in X3. destruct (edit_props names cls props e) as [[[p' g] nw]|] eqn:EP; [|discriminate]. cbn [bind] in X3. destruct (each _ g t) as [d1|] eqn:E1; [|discriminate]. cbn [bind] in X3. destruct (each _ nw d1) as [d2|] eqn:E2; [|discriminate]. cbn [bind] in X3. injection X3 as -> -> -> ->.
  destruct (gone_all _ _ _ _ _ _ _ NB RC HF EP HD) as (ND & GK & GA & GN & GW). destruct (edit_props_ok names NB _ _ _ _ _ _ RC HF EP) as (RC' & [OK OS ON] & RN).
  pose proof (sync_inv _ _ _ _ _ SC) as (_ & _ & _ & SK). destruct (kid_in _ _ _ HK) as (x & I & J). destruct (SK _ _ _ I J) as (r & GR & SR).
  destruct (each_run _ (fun n d => match kid props n with Some c => within d n (detach_obj c) | None => Err GenericError end) (fun n => [n]) (fun m d' => forall b, kid props m = Some b -> exists s s', dget t m = Some (Sub s) /\ dget d' m = Some (Sub s') /\ stripped b s s') gone t) as (d1' & E1' & (C1 & F1) & P1).
  { intros m e1 I1 J1. destruct (GK m I1) as (b & EK). rewrite EK. destruct (kid_in _ _ _ EK) as (y & I2 & J2). destruct (SK _ _ _ I2 J2) as (u & G2 & S2).
    destruct (detach_ok names _ _ _ (form_kids _ _ _ _ (ready_form _ _ _ _ RC I2) J2) S2) as (u' & D & T). exists (dput e1 m (Sub u')). split; [|split; [apply frame_put|]]. { eapply within_run; eauto. rewrite J1 by (left; auto). auto. } intros b' [= <-]. exists u, u'. rewrite get_put_same. auto. }
  { intros m e1 e2 I1 J1 Q b EK. destruct (Q b EK) as (u & u' & Y1 & Y2 & Y3). exists u, u'. rewrite J1 by (left; auto). auto. }
  { replace (flat_map (fun n => [n]) gone) with gone by (clear; induction gone; cbn; f_equal; auto). auto. }
  replace (flat_map (fun n => [n]) gone) with gone in F1 by (clear; induction gone; cbn; f_equal; auto). rewrite E1 in E1'. injection E1' as <-. rewrite Forall_forall in P1.
  pose proof (each_within _ _ (fun x => [fst x]) _ _ _ (fun x e e' X => match in_sub_ok _ _ _ _ X with ex_intro _ s (ex_intro _ s' (conj _ E)) => eq_ind_r (fun q => frame [fst x] e q) (frame_put e (fst x) (Sub s')) E end) E2) as (_ & F2).
  assert (F2' : forall m, ~ In m (map fst new) -> dget t2 m = dget d1 m). { intros m N. apply F2. intros X. apply in_flat_map in X. destruct X as (y & I1 & [<-|[]]). apply N. apply in_map. auto. }
  rewrite !storage_app, G, X4. cbn [storage]. rewrite GR. exists r.
  assert (dec : In n gone \/ ~ In n gone) by (destruct (in_dec (list_eq_dec Z.eq_dec) n gone); auto).
  destruct (kid props' n) as [c'|] eqn:EK'.
  - destruct (kid_in _ _ _ EK') as (y & I2 & J2). destruct (OK _ _ _ I2 J2) as [IN|((z & I3 & J3) & NG & NN)].
    + destruct dec as [IG|NG].
      * destruct (P1 n IG c HK) as (u & u' & Y1 & Y2 & Y3). rewrite GR in Y1. injection Y1 as <-. destruct (attach_new _ _ _ _ _ _ _ ON E2 IN Y2) as (t' & EA' & GT). rewrite GT. exists t'. split; auto. split; auto. right. eauto.
      * exfalso. apply NG. eapply GW; eauto.
    + rewrite F2', F1, GR by auto. exists r. split; auto. split; auto. left. split; auto. assert (kid props n = Some c') by (eapply kid_some; eauto; eapply ready_distinct; eauto). congruence.
  - assert (IG : In n gone) by (destruct (GA n c HK); [congruence|auto]). destruct (P1 n IG c HK) as (u & u' & Y1 & Y2 & Y3). rewrite GR in Y1. injection Y1 as <-.
    assert (NN : ~ In n (map fst new)).
    { intros X. apply in_map_iff in X. destruct X as ([m b] & <- & X). apply GN in X. cbn in EK'. congruence. }
    rewrite F2', Y2 by auto. eauto.
Qed.
Print Assumptions C65_removed.

(** ** Concrete cases *)
Lemma ex_steps : steps ex_names ex_s0 (ex_s 3) /\ start ex_names ex_s0 /\ tidy (s_dir ex_s0).
Proof.
  assert (C : create ex_names ex_tree = Ok ex_s0) by (vm_compute; reflexivity).
  split; [|split; [exact (start_create _ _ _ ex_ready C)|exact (C65_new_tidy _ _ _ ex_ready C)]]. change ex_s0 with (ex_s 0) at 1.
  eapply steps_step; [|apply ex_run; reflexivity|]. { intros cls props _. cbn [edit_fits]. split; [lia|apply ex_leaf_ready]. }
  eapply steps_step; [|apply ex_run; reflexivity|]. { intros cls props _. exact I. }
  eapply steps_step; [|apply ex_run; reflexivity|apply steps_refl]. exact I.
Qed.
Example C65_detach_case : exists c d d', look [ex_text 3 32] (s_obj (ex_s 3)) = Some c /\ storage [ex_text 3 32] (s_dir (ex_s 3)) = Some d /\ detach_obj c d = Ok d' /\ stripped c d d' /\
  c = Obj 1 [(4, ex_vec 4 2 [(0, ex_leaf 5); (1, ex_leaf 40)])].
Proof.
  destruct ex_steps as (S & T & _). assert (L : look [ex_text 3 32] (s_obj (ex_s 3)) = Some (Obj 1 [(4, ex_vec 4 2 [(0, ex_leaf 5); (1, ex_leaf 40)])])) by (vm_compute; reflexivity).
  destruct (C65_detach _ _ _ _ _ ex_names_bmp T S L) as (d & d' & X & Y & Z). exists (Obj 1 [(4, ex_vec 4 2 [(0, ex_leaf 5); (1, ex_leaf 40)])]), d, d'. repeat (split; [assumption|]). reflexivity.
Qed.
Example C65_removes_case : exists s', act ex_names (ex_s 3) (AEdit [ex_text 3 32] (EPop 4 1)) = Ok s'.
Proof.
  destruct ex_steps as (S & T & _). assert (L : look [ex_text 3 32] (s_obj (ex_s 3)) = Some (Obj 1 [(4, ex_vec 4 2 [(0, ex_leaf 5); (1, ex_leaf 40)])])) by (vm_compute; reflexivity).
  apply (C65_removes _ _ _ _ _ _ (EPop 4 1) ex_names_bmp T S L). cbn. lia.
Qed.
Lemma ex_fits : forall o, s_obj (ex_s 3) = o -> fits o.
Proof.
  intros o <-. assert (E : s_obj (ex_s 3) = Obj 1 [(1, PData 130 (Some [1; 2; 3])); (2, ex_stream [9; 8]);
   (3, ex_ref (Obj 1 [(4, ex_vec 4 2 [(0, ex_leaf 5); (1, ex_leaf 40)])])); (4, ex_vec 4 2 [(0, ex_leaf 6); (1, ex_leaf 7)]);
   (5, PSet (Some (ex_data 5 22)) (Some (ex_text 5 22)) 1 4294967295 (Some 7) (Some 16) []);
   (6, PWeak 2 (Some (ex_weak 1 7)) (Some 1) (Some 7) (Some 16) (Some ex_key));
   (7, PWeaks 18 (Some (ex_data 7 22)) (Some (ex_text 7 22)) (Some 1) (Some 7) (Some 16) [ex_key])]) by (vm_compute; reflexivity).
  rewrite E. unfold ex_stream, ex_ref, ex_leaf, ex_vec. cbn [fits every fst snd prop_fits]. tree.
Qed.
Example C65_saves_case : exists s', act ex_names (ex_s 3) ASave = Ok s'.
Proof. destruct ex_steps as (S & T & D). apply (C65_saves _ _ _ ex_names_bmp T D S). apply ex_fits. reflexivity. Qed.
Example C65_removed_case : exists s' t t', act ex_names (ex_s 3) (AEdit [] (ERef 3 (ex_leaf 41) true)) = Ok s' /\
  storage [ex_text 3 32] (s_dir (ex_s 3)) = Some t /\ storage [ex_text 3 32] (s_dir s') = Some t' /\ exists t1, stripped (Obj 1 [(4, ex_vec 4 2 [(0, ex_leaf 5); (1, ex_leaf 40)])]) t t1 /\ attach_obj ex_names t1 (ex_leaf 41) = Ok t'.
Proof.
  destruct ex_steps as (S & T & _). assert (A : exists s', act ex_names (ex_s 3) (AEdit [] (ERef 3 (ex_leaf 41) true)) = Ok s') by (exists (PropsEdit.get (act ex_names (ex_s 3) (AEdit [] (ERef 3 (ex_leaf 41) true))) ex_s0); vm_compute; reflexivity). destruct A as (s' & A).
  destruct (C65_effect _ _ _ _ _ A) as ((cls & props & props' & L & L' & E) & _). cbn [look] in L, L'.
  assert (F : action_fits ex_names (ex_s 3) (AEdit [] (ERef 3 (ex_leaf 41) true))). { intros cls0 props0 _. cbn [edit_fits]. split; [lia|apply ex_leaf_ready]. }
  assert (OB : forall s1, act ex_names (ex_s 3) (AEdit [] (ERef 3 (ex_leaf 41) true)) = Ok s1 -> match s_obj s1 with Obj _ p => kid p (ex_text 3 32) end = Some (ex_leaf 41)).
  { assert (X : match act ex_names (ex_s 3) (AEdit [] (ERef 3 (ex_leaf 41) true)) with Ok s1 => match s_obj s1 with Obj _ p => kid p (ex_text 3 32) end | Err _ => None end = Some (ex_leaf 41)) by (vm_compute; reflexivity). intros s1 E1. rewrite E1 in X. exact X. }
  assert (KK : match s_obj (ex_s 3) with Obj _ p => kid p (ex_text 3 32) end = Some (Obj 1 [(4, ex_vec 4 2 [(0, ex_leaf 5); (1, ex_leaf 40)])])) by (vm_compute; reflexivity).
  specialize (OB _ A). assert (SI : forall a b : obj, Some a = Some b -> a = b) by (intros a b [=]; auto). apply SI in L. apply SI in L'. rewrite L in KK. rewrite L' in OB.
  destruct (C65_removed ex_names ex_s0 (ex_s 3) [] (ERef 3 (ex_leaf 41) true) s' cls props props' (ex_text 3 32) (Obj 1 [(4, ex_vec 4 2 [(0, ex_leaf 5); (1, ex_leaf 40)])]) ex_names_bmp T S F eq_refl A) as (t & t' & X & Y & Z); [cbn [look]; rewrite L; reflexivity|cbn [look]; rewrite L'; reflexivity|exact KK|].
  exists s', t, t'. refine (conj A (conj X (conj Y _))). rewrite OB in Z. destruct Z as [(Z & _)|Z]; [discriminate|]. exact Z.
Qed.
