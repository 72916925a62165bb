(** C65: a file edited, saved and edited again is read as what was in memory when it was saved. *)
From Verif Require Import Base BaseFacts Codec CodecFacts Text TextFacts TypesModel TypesFacts ObjModel PropsObj TreeModel PropsTree PropsTreeMore PropsTreeCopy EditModel EditFacts.
From Coq Require Import ZArith List Bool Lia String Arith.
Import ListNotations.
Open Scope Z_scope.

(** ** Specification: a session *)

(** What the caller passes fits: see [edit_fits]. A stream is opened for the first time only on an object that
    is marked as modified anyway; [C65_stream_refuted] shows what happens otherwise. *)
Definition action_fits (names : Z -> Z -> list Z) (s : session) (a : action) : Prop :=
  match a with
  | AEdit w e => forall cls props, look w (s_obj s) = Some (Obj cls props) -> edit_fits names cls props e
  | AStream w pid b => 0 <= pid < 65536 /\
      (In w (s_mod s) \/ forall cls props, look w (s_obj s) = Some (Obj cls props) -> exists data n c, In (pid, PStream data n c) props)
  | ASave => True
  end.
Inductive steps (names : Z -> Z -> list Z) : session -> session -> Prop :=
| steps_refl : forall s, steps names s s
| steps_step : forall s a s' s'', action_fits names s a -> act names s a = Ok s' -> steps names s' s'' -> steps names s s''.
(** A file that was just created or opened. *)
Inductive start (names : Z -> Z -> list Z) : session -> Prop :=
| start_create : forall o s, ready names o -> create names o = Ok s -> start names s
| start_open : forall fuel d s, open_file names fuel d = Ok s -> ready names (s_obj s) -> start names s.

Definition good (names : Z -> Z -> list Z) (s : session) : Prop :=
  ready names (s_obj s) /\ sync names (fun w => In w (s_mod s)) (s_dir s) (s_obj s).

Lemma fold_mod : forall l m w, In w (fold_left add_mod l m) <-> In w l \/ In w m.
Proof.
  assert (A : forall m v w, In w (add_mod m v) <-> w = v \/ In w m).
  { intros m v w. unfold add_mod. destruct (existsb (path_eqb v) m) eqn:E.
    - apply existsb_exists in E. destruct E as (u & I & E). apply path_eqb_spec in E. subst u. split; auto. intros [->|J]; auto.
    - rewrite in_app_iff. cbn. split; [intros [H|[H|[]]]; auto|intros [H|H]; auto]. }
  induction l as [|v l IH]; intros m w; cbn [fold_left]. { cbn. tauto. } rewrite IH, A. cbn. split; intros; intuition.
Qed.
Lemma add_mod_in : forall m v w, In w (add_mod m v) <-> w = v \/ In w m.
Proof. intros m v w. pose proof (fold_mod [v] m w) as F. cbn [fold_left] in F. rewrite F. cbn. intuition. Qed.

Section Session.
Variable names : Z -> Z -> list Z.
Hypothesis NB : forall cls pid, Forall bmp (names cls pid).

Lemma start_good : forall s, start names s -> good names s.
Proof.
  intros s [o s0 HR H|fuel d s0 H HR].
  - unfold create in H. destruct (attach_obj names empty_dir o) as [d|] eqn:E; [|discriminate]. cbn [bind] in H. injection H as <-. split; auto. cbn. eapply attach_sync; eauto.
  - unfold open_file in H. destruct (read_obj names fuel d) as [o|] eqn:E; [|discriminate]. cbn [bind] in H. injection H as <-. split; auto. cbn. eapply open_sync; eauto.
Qed.

Lemma save_good : forall s s', good names s -> act names s ASave = Ok s' -> s_obj s' = s_obj s /\ s_mod s' = [] /\ good names s' /\ sync names (fun _ => False) (s_dir s') (s_obj s').
Proof.
  intros s s' (HR & HS) H. cbn [act] in H. unfold save_all in H. destruct (each _ _ _) as [[d o]|] eqn:E; [|discriminate]. cbn [bind] in H. injection H as <-. cbn.
  apply save_each in E; auto. destruct E as (-> & S). split; auto. split; auto. split; auto. split; auto.
Qed.

Lemma act_good : forall s a s', good names s -> action_fits names s a -> act names s a = Ok s' -> good names s'.
Proof.
  intros s a s' HG HF H. destruct a as [w e|w pid b|].
  - destruct HG as (HR & HS). cbn [act action_fits] in *. destruct (at_path _ w _ _) as [[[d o] [gone new]]|] eqn:EA; [|discriminate]. cbn [bind] in H. injection H as <-. unfold good. cbn [s_obj s_dir s_mod].
    apply (at_path_sync names _ _ w (fun v => In v (s_mod s))) with (2 := HR) (3 := HS) (1 := EA).
    + intros t c t' c' EL EK RC SC. destruct c as [cls props]. eapply (edit_obj_sync names NB); eauto.
      * cbn. eapply HF; eauto.
      * rewrite app_nil_r. apply add_mod_in. auto.
      * intros n c v I J. apply add_mod_in. right. apply fold_mod. left. apply in_flat_map. exists (n, c). split; auto. apply in_map_iff. exists v. auto.
      * intros n v N I. apply add_mod_in. right. apply fold_mod. right. apply filter_In. split; auto. apply negb_true_iff. apply not_true_is_false. intros X. apply existsb_exists in X. destruct X as (m & J & X). apply below_path_spec in X. destruct X as (u & X). rewrite <- app_assoc in X. apply app_inv_head in X. cbn in X. injection X as -> _. auto.
    + intros v Hv I. apply add_mod_in. right. apply fold_mod. right. apply filter_In. split; auto. apply negb_true_iff. apply not_true_is_false. intros X. apply existsb_exists in X. destruct X as (m & J & X). apply below_path_spec in X. destruct X as (u & X). rewrite <- app_assoc in X. apply (Hv _ X).
  - destruct HG as (HR & HS). cbn [act action_fits] in *. destruct HF as (HP & HF). destruct (at_path _ w _ _) as [[[d o] u]|] eqn:EA; [|discriminate]. cbn [bind] in H. injection H as <-. unfold good. cbn [s_obj s_dir s_mod].
    apply (at_path_sync names _ _ w (fun v => In v (s_mod s))) with (2 := HR) (3 := HS) (1 := EA); auto.
    intros t c t' c' EL EK RC SC. destruct (edit_stream names pid b t c) as [[t1 c1]|] eqn:ES; [|discriminate]. cbn [bind] in EK. injection EK as <- <- _.
    eapply (stream_sync names NB); eauto. rewrite app_nil_r. destruct HF as [HF|HF]; auto. right. destruct c as [cls props]. destruct (HF _ _ EL) as (data & n & c' & I). exists cls, props, data, n, c'. auto.
  - apply save_good in H; auto. tauto.
Qed.

Lemma steps_good : forall s s', steps names s s' -> good names s -> good names s'.
Proof. induction 1 as [s|s a s' s'' HF H HS IH]; auto. intros G. apply IH. eapply act_good; eauto. Qed.
End Session.

(** Whatever is done to a file that was created or opened, also with saving in between: when it is saved,
    the objects stay as they are, nothing stays marked, and what is then read from the file is the objects in memory:
    classes, properties in their order, streams, and all below. *)
Theorem C65_session : forall names s0 s s' fuel, (forall cls pid, Forall bmp (names cls pid)) -> start names s0 -> steps names s0 s -> act names s ASave = Ok s' ->
  (depth (s_obj s) <= fuel)%nat -> s_obj s' = s_obj s /\ s_mod s' = [] /\ read_obj names fuel (s_dir s') = Ok (s_obj s).
Proof.
  intros names s0 s s' fuel NB HS HT H HD. apply start_good in HS. apply (steps_good names NB _ _ HT) in HS. destruct (save_good names _ _ HS H) as (E & E2 & (HR & _) & SY). split; auto. split; auto. rewrite <- E in *.
  apply (synced_read names _ (fun _ => False)); auto. eapply C63_library, ready_made. eauto.
Qed.
Print Assumptions C65_session.

(** ** What a change does to the objects in memory *)

(** Specification: vectors are lists of objects, sets are dictionaries from unique keys. *)
Definition vector (props : list (Z * prop)) (pid : Z) : list obj :=
  match dict_get Z.eqb props pid with Some (PVec _ _ _ _ items) => map snd items | _ => [] end.
Definition member (props : list (Z * prop)) (pid : Z) (key : list Z) : option obj :=
  match dict_get Z.eqb props pid with Some (PSet _ _ _ _ _ _ items) => option_map snd (dict_get zlist_eqb items key) | _ => None end.
Definition edit_pid (e : edit) : Z :=
  match e with EPut pid _ | EDel pid | ERef pid _ _ | EAppend pid _ | EInsert pid _ _ | EPop pid _ | EAssign pid _ _ | EClear pid | EAdd pid _ _ _ _ _ | ERemove pid _ => pid end.
Definition effect (props : list (Z * prop)) (e : edit) (props' : list (Z * prop)) : Prop :=
  (forall pid, pid <> edit_pid e -> dict_get Z.eqb props' pid = dict_get Z.eqb props pid) /\
  match e with
  | EPut pid p => dict_get Z.eqb props' pid = Some p
  | EDel pid => dict_get Z.eqb props' pid = None
  | ERef pid o _ => exists d n, dict_get Z.eqb props' pid = Some (PRef d n (Some o))
  | EAppend pid o => vector props' pid = vector props pid ++ [o]
  | EInsert pid i o => dict_get Z.eqb props pid <> None ->
      exists a b, vector props pid = a ++ b /\ zlen a = i /\ vector props' pid = a ++ o :: b
  | EPop pid i => exists a o b, vector props pid = a ++ o :: b /\ zlen a = i /\ vector props' pid = a ++ b
  | EAssign pid i o => exists a o' b, vector props pid = a ++ o' :: b /\ zlen a = i /\ vector props' pid = a ++ o :: b
  | EClear pid => vector props' pid = [] /\ forall k, member props' pid k = None
  | EAdd pid _ _ key o _ => forall k, member props' pid k = if zlist_eqb key k then Some o else member props pid k
  | ERemove pid key => member props pid key <> None /\ forall k, member props' pid k = if zlist_eqb key k then None else member props pid k
  end.

Lemma dict_get_set : forall (l : list (Z * prop)) k v j, dict_get Z.eqb (dict_set Z.eqb l k v) j = if k =? j then Some v else dict_get Z.eqb l j.
Proof.
  induction l as [|[k' v'] l IH]; intros k v j; cbn; [destruct (k =? j); auto|]. destruct (k' =? k) eqn:E; cbn.
  - apply Z.eqb_eq in E. subst k'. destruct (k =? j); auto.
  - rewrite IH. destruct (k' =? j) eqn:F; auto. apply Z.eqb_eq in F. subst j. rewrite Z.eqb_sym, E. auto.
Qed.
Lemma zget_set : forall A (l : list (list Z * A)) k v j, dict_get zlist_eqb (dict_set zlist_eqb l k v) j = if zlist_eqb k j then Some v else dict_get zlist_eqb l j.
Proof.
  induction l as [|[k' v'] l IH]; intros k v j; cbn; [destruct (zlist_eqb k j); auto|]. destruct (zlist_eqb k' k) eqn:E; cbn.
  - apply zlist_eqb_spec in E. subst k'. destruct (zlist_eqb k j); auto.
  - rewrite IH. destruct (zlist_eqb k' j) eqn:F; auto. apply zlist_eqb_spec in F. subst j. destruct (zlist_eqb k k') eqn:G; auto. apply zlist_eqb_spec in G. subst. rewrite zlist_eqb_refl in E. discriminate.
Qed.
Lemma zget_app : forall A (l : list (list Z * A)) k v j, dict_get zlist_eqb l k = None -> dict_get zlist_eqb (l ++ [(k, v)]) j = if zlist_eqb k j then Some v else dict_get zlist_eqb l j.
Proof.
  induction l as [|[k' v'] l IH]; intros k v j H; cbn in *; [destruct (zlist_eqb k j); auto|]. destruct (zlist_eqb k' k) eqn:E; [discriminate|]. rewrite IH by auto. destruct (zlist_eqb k' j) eqn:F; auto. apply zlist_eqb_spec in F. subst j.
  destruct (zlist_eqb k k') eqn:G; auto. apply zlist_eqb_spec in G. subst. rewrite zlist_eqb_refl in E. discriminate.
Qed.
Lemma zget_filter : forall A (l : list (list Z * A)) k j, dict_get zlist_eqb (filter (fun x => negb (zlist_eqb (fst x) k)) l) j = if zlist_eqb k j then None else dict_get zlist_eqb l j.
Proof.
  induction l as [|[k' v'] l IH]; intros k j; cbn; [destruct (zlist_eqb k j); auto|]. destruct (zlist_eqb k' k) eqn:E; cbn; rewrite IH.
  - apply zlist_eqb_spec in E. subst k'. destruct (zlist_eqb k j); auto.
  - destruct (zlist_eqb k' j) eqn:F; auto. apply zlist_eqb_spec in F. subst j. destruct (zlist_eqb k k') eqn:G; auto. apply zlist_eqb_spec in G. subst. rewrite zlist_eqb_refl in E. discriminate.
Qed.
Lemma ztake_len : forall A (l : list A) i, 0 <= i <= zlen l -> zlen (ztake i l) = i.
Proof. intros A l i H. unfold ztake, zlen in *. rewrite firstn_length. lia. Qed.

Lemma edit_effect : forall names cls props e props' gone new, edit_props names cls props e = Ok (props', gone, new) -> effect props e props'.
Proof.
  intros names cls props e props' gone new H.
  assert (G3 : forall A B C (x : A) (y : B) (z : C) a b c, Ok (x, y, z) = Ok (a, b, c) -> x = a) by (intros; congruence).
  assert (SET : forall k v j, j <> k -> dict_get Z.eqb (dict_set Z.eqb props k v) j = dict_get Z.eqb props j).
  { intros k v j N. rewrite dict_get_set. destruct (k =? j) eqn:E; auto. apply Z.eqb_eq in E. congruence. }
  assert (GET : forall k v, dict_get Z.eqb (dict_set Z.eqb props k v) k = Some v) by (intros; rewrite dict_get_set, Z.eqb_refl; auto).
  unfold effect, vector, member. destruct e as [pid p|pid|pid o loaded|pid o|pid i o|pid i|pid i o|pid|pid kpid ksize key o loaded|pid key]; cbn [edit_props edit_pid] in *.
  - apply G3 in H. subst props'. split; auto.
  - apply G3 in H. subst props'. clear. split.
    + intros j N. induction props as [|[k v] l IH]; cbn; auto. destruct (k =? pid) eqn:E; cbn; rewrite IH; auto. destruct (k =? j) eqn:F; auto. lia.
    + induction props as [|[k v] l IH]; cbn; auto. destruct (k =? pid) eqn:E; cbn; auto. rewrite E. auto.
  - destruct (dict_get Z.eqb props pid) as [[| |d [n|] old| | | |]|] eqn:EG; try discriminate.
    + apply G3 in H. subst props'. split; auto. rewrite GET. eauto.
    + destruct (encode_utf16le _) as [e|]; [|discriminate]. cbn [bind] in H. apply G3 in H. subst props'. split; auto. rewrite GET. eauto.
  - destruct (dict_get Z.eqb props pid) as [[| | |d [n|] next last items| | |]|] eqn:EG; try discriminate.
    + apply G3 in H. subst props'. split; auto. rewrite GET, map_app. auto.
    + destruct (encode_utf16le _) as [e|]; [|discriminate]. cbn [bind] in H. apply G3 in H. subst props'. split; auto. rewrite GET. auto.
  - destruct (dict_get Z.eqb props pid) as [[| | |d [n|] next last items| | |]|] eqn:EG; try discriminate.
    + destruct ((0 <=? i) && (i <=? zlen items)) eqn:EI; [|discriminate]. cbn [bind] in H. apply G3 in H. subst props'. split; auto. intros _. rewrite GET. destruct (insert_split _ items i (next, o)) as (-> & IS).
      exists (map snd (ztake i items)), (map snd (zdrop i items)). rewrite <- map_app, <- IS. split; auto. split; [rewrite zlen_map; apply ztake_len; lia|]. rewrite map_app. auto.
    + apply G3 in H. subst props'. split; auto. congruence.
  - destruct (dict_get Z.eqb props pid) as [[| | |d [n|] next last items| | |]|] eqn:EG; try discriminate. destruct (0 <=? i) eqn:EI; [|discriminate]. cbn [bind] in H. destruct (znth items i) as [[k ok]|] eqn:EZ; [|discriminate]. apply G3 in H. subst props'. split; auto. rewrite GET.
    pose proof (znth_Some _ _ _ _ EZ). destruct (znth_split _ _ _ _ EZ) as (SP & _). exists (map snd (ztake i items)), ok, (map snd (zdrop (i + 1) items)).
    split; [rewrite SP at 1; rewrite map_app; auto|]. split; [rewrite zlen_map; apply ztake_len; lia|]. unfold drop_at. rewrite map_app. auto.
  - destruct (dict_get Z.eqb props pid) as [[| | |d [n|] next last items| | |]|] eqn:EG; try discriminate. destruct (0 <=? i) eqn:EI; [|discriminate]. cbn [bind] in H. destruct (znth items i) as [[k ok]|] eqn:EZ; [|discriminate]. apply G3 in H. subst props'. split; auto. rewrite GET.
    pose proof (znth_Some _ _ _ _ EZ). destruct (znth_split _ _ _ _ EZ) as (SP & _). rewrite (zupd_split _ _ _ _ (k, o) EZ). exists (map snd (ztake i items)), ok, (map snd (zdrop (i + 1) items)).
    split; [rewrite SP at 1; rewrite map_app; auto|]. split; [rewrite zlen_map; apply ztake_len; lia|]. rewrite map_app. auto.
  - destruct (dict_get Z.eqb props pid) as [[| | |d [n|] next last items|d [n|] next last kp ks items| |]|] eqn:EG; try discriminate; apply G3 in H; subst props'; split; auto; rewrite GET; auto.
  - destruct (dict_get Z.eqb props pid) as [[| | | |d [n|] next last kp ks items| |]|] eqn:EG; try discriminate.
    + destruct (dict_get zlist_eqb items key) as [[k ok]|] eqn:EK; apply G3 in H; subst props'; split; auto; intros j; rewrite GET.
      * rewrite zget_set. destruct (zlist_eqb key j); auto.
      * rewrite zget_app by auto. destruct (zlist_eqb key j); auto.
    + destruct (encode_utf16le _) as [e|]; [|discriminate]. cbn [bind] in H. apply G3 in H. subst props'. split; auto. intros j. rewrite GET. cbn. destruct (zlist_eqb key j); auto.
  - destruct (dict_get Z.eqb props pid) as [[| | | |d [n|] next last kp ks items| |]|] eqn:EG; try discriminate. destruct (dict_get zlist_eqb items key) as [[k ok]|] eqn:EK; [|discriminate]. apply G3 in H. subst props'. split; auto. rewrite GET.
    split; [discriminate|]. intros j. rewrite zget_filter. destruct (zlist_eqb key j); auto.
Qed.

(** A property without the objects in it *)
Definition hollow (p : prop) : prop :=
  match p with
  | PRef d n (Some _) => PRef d n (Some (Obj 0 []))
  | PVec d n a b items => PVec d n a b (map (fun x => (fst x, Obj 0 [])) items)
  | PSet d n a b c e items => PSet d n a b c e (map (fun x => (fst x, (fst (snd x), Obj 0 []))) items)
  | p => p
  end.
Definition same_outside (o o' : obj) : Prop :=
  match o, o' with Obj cls props, Obj cls' props' => cls' = cls /\ map (fun x => (fst x, hollow (snd x))) props' = map (fun x => (fst x, hollow (snd x))) props end.

Lemma hollow_put : forall n c p, hollow (put_kid n c p) = hollow p.
Proof. intros n c p. destruct p as [|da [k|] co|da [k|] [o|]|da [k|] ? ? items|da [k|] ? ? ? ? items| |]; auto; cbn; rewrite map_map; auto. Qed.
Lemma kid_put : forall props n c m, kid (map (fun x => (fst x, put_kid n c (snd x))) props) m = if zlist_eqb n m then match kid props m with Some _ => Some c | None => None end else kid props m.
Proof.
  intros props n c m. unfold kid.
  assert (K : forall p, kids (put_kid n c p) = map (fun k => (fst k, if zlist_eqb (fst k) n then c else snd k)) (kids p)).
  { intros p. destruct p as [|da [k|] co|da [k|] [o|]|da [k|] ? ? items|da [k|] ? ? ? ? items| |]; auto; cbn [kids put_kid]; rewrite !map_map; auto. }
  assert (F : flat_map (fun x => kids (snd x)) (map (fun x => (fst x, put_kid n c (snd x))) props) = map (fun k => (fst k, if zlist_eqb (fst k) n then c else snd k)) (flat_map (fun x => kids (snd x)) props)).
  { induction props as [|x l IH]; auto. cbn [map flat_map snd]. rewrite K, IH, map_app. auto. }
  rewrite F. generalize (flat_map (fun x : Z * prop => kids (snd x)) props). clear. induction l as [|[k o] l IH]; cbn; [destruct (zlist_eqb n m); auto|].
  destruct (zlist_eqb k m) eqn:E; auto. apply zlist_eqb_spec in E. subst k. destruct (zlist_eqb m n) eqn:F.
  - apply zlist_eqb_spec in F. subst. rewrite zlist_eqb_refl. auto.
  - destruct (zlist_eqb n m) eqn:G; auto. apply zlist_eqb_spec in G. subst. rewrite zlist_eqb_refl in F. discriminate.
Qed.
Lemma at_path_look : forall A (k : dir -> obj -> result (dir * obj * A)) w d o d' o' a, at_path k w d o = Ok (d', o', a) ->
  (exists s c s' c', look w o = Some c /\ k s c = Ok (s', c', a) /\ look w o' = Some c') /\
  (forall v, (forall u, v <> w ++ u) -> (forall u, w <> v ++ u) -> look v o' = look v o) /\
  (forall v u, w = v ++ u -> u <> [] -> exists c c', look v o = Some c /\ look v o' = Some c' /\ same_outside c c').
Proof.
  intros A k. induction w as [|n r IH]; intros d o d' o' a H; cbn [at_path] in H.
  - split; [exists d, o, d', o'; auto|]. split. { intros v Hv. exfalso. apply (Hv v). auto. } intros v u E N. destruct v, u; try discriminate. congruence.
  - destruct o as [cls props]. destruct (kid props n) as [c|] eqn:EK; [|discriminate]. destruct (dget d n) as [[|s]|]; try discriminate. destruct (at_path k r s c) as [[[s' c'] a']|] eqn:E; [|discriminate]. cbn [bind] in H. injection H as <- <- <-.
    destruct (IH _ _ _ _ _ E) as (L1 & L2 & L3). split; [|split].
    + destruct L1 as (t & b & t' & b' & X1 & X2 & X3). exists t, b, t', b'. cbn [look]. rewrite kid_put, zlist_eqb_refl, EK. auto.
    + intros v Hv Hw. destruct v as [|m v]. { exfalso. apply (Hw (n :: r)). auto. } cbn [look]. rewrite kid_put. destruct (zlist_eqb n m) eqn:Z; auto. apply zlist_eqb_spec in Z. subst m. rewrite EK. apply L2.
      * intros u X. apply (Hv u). cbn. congruence.
      * intros u X. apply (Hw u). cbn. congruence.
    + intros v u Hv Hu. destruct v as [|m v].
      * cbn in Hv. cbn [look]. eexists _, _. split; [reflexivity|]. split; [reflexivity|]. cbn. split; auto. rewrite map_map. apply map_ext. intros x. cbn [fst snd]. rewrite hollow_put. auto.
      * cbn in Hv. injection Hv as <- Hv. cbn [look]. rewrite kid_put, zlist_eqb_refl, EK. eapply L3; eauto.
Qed.

(** A change takes effect on the object at its place as on a list or dictionary, its other properties stay;
    objects at other places stay, and those on the way to it except for what is below. *)
Theorem C65_effect : forall names s w e s', act names s (AEdit w e) = Ok s' ->
  (exists cls props props', look w (s_obj s) = Some (Obj cls props) /\ look w (s_obj s') = Some (Obj cls props') /\ effect props e props') /\
  (forall v, (forall u, v <> w ++ u) -> (forall u, w <> v ++ u) -> look v (s_obj s') = look v (s_obj s)) /\
  (forall v u, w = v ++ u -> u <> [] -> exists c c', look v (s_obj s) = Some c /\ look v (s_obj s') = Some c' /\ same_outside c c').
Proof.
  intros names s w e s' H. cbn [act] in H. destruct (at_path _ w _ _) as [[[d o] [gone new]]|] eqn:EA; [|discriminate]. cbn [bind] in H. injection H as <-. cbn [s_obj].
  destruct (at_path_look _ _ _ _ _ _ _ _ EA) as ((t & c & t' & c' & L & K & L') & L2 & L3). split; auto. destruct c as [cls props]. cbn [edit_obj] in K. destruct (edit_props names cls props e) as [[[props' g] nw]|] eqn:EP; [|discriminate]. cbn [bind] in K.
  destruct (each _ g t) as [d1|]; [|discriminate]. cbn [bind] in K. destruct (each _ nw d1) as [d2|]; [|discriminate]. cbn [bind] in K. injection K as <- <- <- <-. exists cls, props, props'. split; auto. split; auto. eapply edit_effect; eauto.
Qed.
Theorem C65_stream_effect : forall names s w pid b s', act names s (AStream w pid b) = Ok s' ->
  (exists cls props props', look w (s_obj s) = Some (Obj cls props) /\ look w (s_obj s') = Some (Obj cls props') /\
    (exists data n, dict_get Z.eqb props' pid = Some (PStream data n (Some b))) /\ forall q, q <> pid -> dict_get Z.eqb props' q = dict_get Z.eqb props q) /\
  (forall v, (forall u, v <> w ++ u) -> (forall u, w <> v ++ u) -> look v (s_obj s') = look v (s_obj s)) /\
  (forall v u, w = v ++ u -> u <> [] -> exists c c', look v (s_obj s) = Some c /\ look v (s_obj s') = Some c' /\ same_outside c c').
Proof.
  intros names s w pid b s' H. cbn [act] in H. destruct (at_path _ w _ _) as [[[d o] u]|] eqn:EA; [|discriminate]. cbn [bind] in H. injection H as <-. cbn [s_obj].
  destruct (at_path_look _ _ _ _ _ _ _ _ EA) as ((t & c & t' & c' & L & K & L') & L2 & L3). split; auto. destruct (edit_stream names pid b t c) as [[t1 c1]|] eqn:ES; [|discriminate]. cbn [bind] in K. injection K as <- <- _.
  destruct c as [cls props]. cbn [edit_stream] in ES. match type of ES with bind ?x _ = _ => destruct x as [[data n]|] eqn:EX; [|discriminate] end. cbn [bind] in ES. destruct (put_stream t n b) as [d1|] eqn:EP; [|discriminate]. cbn [bind] in ES. injection ES as <- <-.
  eexists cls, props, _. split; auto. split; [exact L'|]. split; [exists data, (Some n); rewrite dict_get_set, Z.eqb_refl; auto|]. intros q N. rewrite dict_get_set. destruct (pid =? q) eqn:E; auto. lia.
Qed.
Print Assumptions C65_effect. Print Assumptions C65_stream_effect.

(** ** A concrete case *)

Definition ex_stream (b : list Z) : prop := PStream (Some (85 :: ex_data 2 32)) (Some (ex_text 2 32)) (Some b).
Definition ex_ref (o : obj) : prop := PRef (Some (ex_data 3 32)) (Some (ex_text 3 32)) (Some o).
Lemma ex_ready : ready ex_names ex_tree.
Proof.
  unfold ex_tree, ex_leaf, ex_vec; cbn [ready every fst snd prop_ready prop_made prop_form map]. unfold prop_ready, prop_made. cbn [prop_form ready every fst snd map]. unfold prop_ready, prop_made. cbn [prop_form ready every fst snd map]. unfold prop_ready, prop_made. cbn [prop_form ready every fst snd map]. tree.
Qed.
Lemma ex_leaf_ready : forall v, ready ex_names (ex_leaf v).
Proof. intros. unfold ex_leaf. cbn [ready every fst snd map]. unfold prop_ready, prop_made. cbn [prop_form]. tree. Qed.

(** A new file with [ex_tree]: a vector below gets an object, a set loses one, the file is saved, an object
    is taken out of a vector, a stream is written, a value changes in an object below, and it is saved again. *)
Definition ex_place (pid k : Z) : list Z := element_storage (ex_text pid 22) k.
Definition ex_actions : list action :=
  [AEdit [ex_text 3 32] (EAppend 4 (ex_leaf 40)); AEdit [] (ERemove 5 ex_key); ASave;
   AEdit [] (EPop 4 0); AStream [] 2 [7; 7; 7]; AEdit [ex_place 4 1] (EPut 1 (PData 130 (Some [99])))].
Definition ex_end : obj := Obj 1
  [(1, PData 130 (Some [1; 2; 3])); (2, ex_stream [7; 7; 7]);
   (3, ex_ref (Obj 1 [(4, ex_vec 4 2 [(0, ex_leaf 5); (1, ex_leaf 40)])]));
   (4, ex_vec 4 2 [(1, ex_leaf 99)]);
   (5, PSet (Some (ex_data 5 22)) (Some (ex_text 5 22)) 1 4294967295 (Some 7) (Some 16) []);
   (6, PWeak 2 (Some (ex_weak 1 7)) (Some 1) (Some 7) (Some 16) (Some ex_key));
   (7, PWeaks 18 (Some (ex_data 7 22)) (Some (ex_text 7 22)) (Some 1) (Some 7) (Some 16) [ex_key])].
Definition get {A} (r : result A) (x : A) : A := match r with Ok y => y | Err _ => x end.
Definition ex_s0 : session := get (create ex_names ex_tree) (Session empty_dir ex_tree []).
Definition ex_s (n : nat) : session := get (run ex_names ex_s0 (firstn n ex_actions)) ex_s0.
Lemma ex_run : forall a n, nth_error ex_actions n = Some a -> act ex_names (ex_s n) a = Ok (ex_s (S n)).
Proof. intros a n H. do 6 (destruct n as [|n]; [injection H as <-; vm_compute; reflexivity|]). destruct n; discriminate. Qed.

Lemma ex_saved : forall s0 s s' o, start ex_names s0 -> steps ex_names s0 s -> act ex_names s ASave = Ok s' -> s_obj s = o -> s_obj s' = o /\ read_obj ex_names (depth o) (s_dir s') = Ok o.
Proof. intros s0 s s' o H0 HS HA HE. destruct (C65_session ex_names s0 s s' (depth o) ex_names_bmp H0 HS HA) as (E & _ & R); [rewrite HE; apply le_n|]. rewrite HE in E, R. auto. Qed.
Example C65_case : exists s s', start ex_names ex_s0 /\ steps ex_names ex_s0 s /\ act ex_names s ASave = Ok s' /\ s_obj s' = ex_end /\
  read_obj ex_names (depth ex_end) (s_dir s') = Ok ex_end.
Proof.
  exists (ex_s 6), (get (act ex_names (ex_s 6) ASave) ex_s0).
  assert (H0 : start ex_names ex_s0). { apply (start_create _ ex_tree); [apply ex_ready|vm_compute; reflexivity]. }
  assert (HS : steps ex_names ex_s0 (ex_s 6)).
  { change ex_s0 with (ex_s 0) at 1.
    eapply steps_step; [|apply ex_run; reflexivity|]. { intros cls props _. cbn [edit_fits]. split; [lia|apply ex_leaf_ready]. }
    eapply steps_step; [|apply ex_run; reflexivity|]. { intros cls props _. exact I. }
    eapply steps_step; [|apply ex_run; reflexivity|]. { exact I. }
    eapply steps_step; [|apply ex_run; reflexivity|]. { intros cls props _. exact I. }
    eapply steps_step; [|apply ex_run; reflexivity|]. { cbn [action_fits]. split; [lia|]. left. assert (X : existsb (path_eqb []) (s_mod (ex_s 4)) = true) by (vm_compute; reflexivity). apply existsb_exists in X. destruct X as (w & X & E). apply path_eqb_spec in E. subst w. exact X. }
    eapply steps_step; [|apply ex_run; reflexivity|apply steps_refl]. { intros cls props _. cbn [edit_fits leaf]. unfold prop_made. cbn [prop_form]. tree. } }
  assert (HA : act ex_names (ex_s 6) ASave = Ok (get (act ex_names (ex_s 6) ASave) ex_s0)) by (vm_compute; reflexivity).
  assert (HE : s_obj (ex_s 6) = ex_end) by (vm_compute; reflexivity).
  exact (conj H0 (conj HS (conj HA (ex_saved _ _ _ _ H0 HS HA HE)))).
Qed.

(** ** Findings *)

(** A stream opened for writing on an object that is saved and not changed otherwise: the property is in memory,
    the stream is in the storage, but the object is not marked and the saved file does not have the property. *)
Theorem C65_stream_refuted : exists s0 s1 s2 s3 o, create ex_names (Obj 1 []) = Ok s0 /\ act ex_names s0 ASave = Ok s1 /\
  act ex_names s1 (AStream [] 2 [9]) = Ok s2 /\ act ex_names s2 ASave = Ok s3 /\
  s_obj s3 = Obj 1 [(2, ex_stream [9])] /\ read_obj ex_names 1 (s_dir s3) = Ok o /\ o = Obj 1 [].
Proof. do 5 eexists. split; [reflexivity|]. split; [vm_compute; reflexivity|]. split; [vm_compute; reflexivity|]. split; [vm_compute; reflexivity|]. split; [vm_compute; reflexivity|]. split; [vm_compute; reflexivity|]. reflexivity. Qed.
(** An object inserted into a vector that has no entry yet is not there afterwards. *)
Theorem C65_insert_refuted : exists s0 s1, create ex_names (Obj 1 []) = Ok s0 /\ act ex_names s0 (AEdit [] (EInsert 4 0 (ex_leaf 7))) = Ok s1 /\ s_obj s1 = Obj 1 [].
Proof. do 2 eexists. split; [reflexivity|]. split; [vm_compute; reflexivity|]. reflexivity. Qed.
(** The object of a reference with a stream, replaced: this succeeds if the old object is in memory, and
    fails if it is not, or if the reference was set to None before. *)
Definition ex_owner (b : list Z) : obj := Obj 1 [(2, ex_stream b)].
Theorem C65_unloaded_refuted : exists s0 s1, create ex_names (Obj 1 [(3, ex_ref (ex_owner [1]))]) = Ok s0 /\
  act ex_names s0 (AEdit [] (ERef 3 (ex_owner [2]) true)) = Ok s1 /\ s_obj s1 = Obj 1 [(3, ex_ref (ex_owner [2]))] /\
  act ex_names s0 (AEdit [] (ERef 3 (ex_owner [2]) false)) = Err AttachError.
Proof. do 2 eexists. split; [vm_compute; reflexivity|]. split; [vm_compute; reflexivity|]. split; vm_compute; reflexivity. Qed.
Theorem C65_none_refuted : exists s0 s1, create ex_names (Obj 1 [(3, ex_ref (ex_owner [1]))]) = Ok s0 /\
  act ex_names s0 (AEdit [] (EDel 3)) = Ok s1 /\ act ex_names s1 (AEdit [] (ERef 3 (ex_owner [2]) true)) = Err AttachError.
Proof. do 2 eexists. split; [vm_compute; reflexivity|]. split; [vm_compute; reflexivity|]. vm_compute. reflexivity. Qed.
Print Assumptions C65_stream_refuted. Print Assumptions C65_insert_refuted. Print Assumptions C65_unloaded_refuted. Print Assumptions C65_none_refuted.
