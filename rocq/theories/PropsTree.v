(** C63: a saved object, with everything below it, is read back as it was. *)
From Verif Require Import Base BaseFacts Codec CodecFacts Text TypesModel TypesFacts ObjModel PropsObj TreeModel.
From Coq Require Import ZArith List Bool Lia String Arith.
Import ListNotations.
Open Scope Z_scope.

(** ** Induction over objects and the things below them *)
Definition below (P : obj -> Prop) (p : prop) : Prop :=
  match p with
  | PRef _ _ (Some o) => P o
  | PVec _ _ _ _ items => Forall (fun x => P (snd x)) items
  | PSet _ _ _ _ _ _ items => Forall (fun x => P (snd (snd x))) items
  | _ => True
  end.
Lemma obj_induct : forall P : obj -> Prop,
  (forall cls props, Forall (fun x => below P (snd x)) props -> P (Obj cls props)) -> forall o, P o.
Proof.
  intros P H. fix IH 1. intros [cls props]. apply H. induction props as [|[pid p] r IHr]; constructor; [|exact IHr]. cbn [snd].
  destruct p as [| |d n [o|]|d n a b items|d n a b c e items| |]; cbn [below]; auto.
  - induction items as [|[k o] t IHt]; constructor; [apply IH|exact IHt].
  - induction items as [|[k [j o]] t IHt]; constructor; [apply IH|exact IHt].
Qed.

(** Forall, in a form recursion can go through *)
Definition every {A} (P : A -> Prop) : list A -> Prop :=
  fix go l := match l with [] => True | x :: r => P x /\ go r end.
Lemma every_Forall : forall A (P : A -> Prop) l, every P l <-> Forall P l.
Proof.
  intros A P. induction l as [|x l IH]; cbn; [split; auto|]. rewrite IH. split; [intros []; constructor; auto|intros H; inversion H; auto].
Qed.

(** How deeply objects are nested *)
Definition most {A} (f : A -> nat) : list A -> nat :=
  fix go l := match l with [] => O | x :: r => Nat.max (f x) (go r) end.
Fixpoint depth (o : obj) : nat :=
  match o with Obj _ props =>
    S (most (fun x => match snd x with
       | PRef _ _ (Some o) => depth o
       | PVec _ _ _ _ items => most (fun y => depth (snd y)) items
       | PSet _ _ _ _ _ _ items => most (fun y => depth (snd (snd y))) items
       | _ => O end) props)
  end.
Lemma most_le : forall A (f : A -> nat) l n, (most f l <= n)%nat <-> Forall (fun x => (f x <= n)%nat) l.
Proof.
  intros A f. induction l as [|x l IH]; intros n; cbn; [split; auto; lia|]. rewrite Nat.max_lub_iff, IH. split; [intros []; constructor; auto|intros H; inversion H; auto].
Qed.

(** ** Specification: the form a property has after it was set or read *)

(** the stored data is the name in UTF-16 *)
Definition named (data name : option (list Z)) (n : list Z) : Prop :=
  name = Some n /\ n <> [] /\ nul_free n /\ exists e, encode_utf16le n = Ok e /\ data = Some e.

Definition prop_form (rec : obj -> Prop) (p : prop) : Prop :=
  match p with
  | PData f _ => In f [130; 134; 64]
  | PStream data name content => exists n e b, name = Some n /\ nul_free n /\ encode_utf16le n = Ok e /\ data = Some (85 :: e) /\ content = Some b
  | PRef data name o => exists n, named data name n /\ match o with Some o => rec o | None => False end
  | PVec data name next last items => exists n, named data name n /\ every (fun x => rec (snd x)) items
  | PSet data name next last kpid ksize items => exists n size,
      named data name n /\ kpid <> None /\ ksize = Some size /\ (size = 16 \/ size = 32) /\
      Forall (fun x => zlen (fst x) = size) items /\ NoDup (map fst items) /\ every (fun x => rec (snd (snd x))) items
  | PWeak f data index kpid ksize ref => In f [2; 3] /\ exists i k r, index = Some i /\ kpid = Some k /\ ref = Some r /\
      ksize = Some (zlen r) /\ exists e, weak_encode i k r = Ok e /\ data = Some e
  | PWeaks f data name index kpid ksize refs => In f [18; 26] /\ exists n size,
      named data name n /\ index <> None /\ kpid <> None /\ ksize = Some size /\ (size = 16 \/ size = 32) /\ Forall (fun k => zlen k = size) refs
  end.

(** the names of the streams and storages a property has in the directory of its object *)
Definition children (p : prop) : list (list Z) :=
  match p with
  | PStream _ (Some n) _ => [n]
  | PRef _ (Some n) _ => [n]
  | PVec _ (Some n) _ _ items => map (fun x => element_storage n (fst x)) items
  | PSet _ (Some n) _ _ _ _ items => map (fun x => element_storage n (fst (snd x))) items
  | _ => []
  end.
Definition indexes (p : prop) : list (list Z) :=
  match p with
  | PVec _ (Some n) _ _ _ | PSet _ (Some n) _ _ _ _ _ | PWeaks _ _ (Some n) _ _ _ _ => [index_stream n]
  | _ => []
  end.

(** An object as the library keeps it: one entry per pid, no two of its streams and storages of the same
    name, and every property in its form. *)
Fixpoint well_formed (o : obj) : Prop :=
  match o with Obj cls props =>
    NoDup (map fst props) /\
    NoDup (codes "properties" :: flat_map (fun x => children (snd x)) props ++ flat_map (fun x => indexes (snd x)) props) /\
    every (fun x => prop_form well_formed (snd x)) props
  end.

(** ** Storage *)
Lemma dget_put : forall d n i m, dget (dput d n i) m = if zlist_eqb n m then Some i else dget d m.
Proof.
  intros [c l] n i m. cbn. induction l as [|[k v] l IH]; cbn; [destruct (zlist_eqb n m); auto|].
  destruct (zlist_eqb k n) eqn:E; cbn.
  - apply zlist_eqb_spec in E. subst k. destruct (zlist_eqb n m); auto.
  - rewrite IH. destruct (zlist_eqb k m) eqn:F; auto. apply zlist_eqb_spec in F. subst k.
    destruct (zlist_eqb n m) eqn:G; auto. apply zlist_eqb_spec in G. subst. rewrite zlist_eqb_refl in E. discriminate.
Qed.
Definition class_of (d : dir) : Z := let 'Dir c _ := d in c.
Definition frame (ns : list (list Z)) (d d' : dir) : Prop :=
  class_of d' = class_of d /\ forall m, ~ In m ns -> dget d' m = dget d m.
Lemma frame_put : forall d n i, frame [n] d (dput d n i).
Proof.
  intros d n i. split; [destruct d; auto|]. intros m Hm. rewrite dget_put. destruct (zlist_eqb n m) eqn:E; auto.
  apply zlist_eqb_spec in E. subst. exfalso. apply Hm. left. auto.
Qed.
Lemma get_put_same : forall d n i, dget (dput d n i) n = Some i.
Proof. intros. rewrite dget_put, zlist_eqb_refl. auto. Qed.
Lemma put_stream_ok : forall d n b d', put_stream d n b = Ok d' -> d' = dput d n (File b).
Proof.
  intros d n b d' H. unfold put_stream in H. destruct (dget d n) as [[f|s]|]; try congruence. destruct (entry_name n); cbn in H; congruence.
Qed.
Lemma in_sub_ok : forall d n k d', in_sub d n k = Ok d' -> exists s s', k s = Ok s' /\ d' = dput d n (Sub s').
Proof.
  intros d n k d' H. unfold in_sub in H. destruct (dget d n) as [[f|s]|]; try discriminate.
  - destruct (k s) as [s'|] eqn:E; [|discriminate]. cbn in H. injection H as <-. eauto.
  - destruct (entry_name n); [|discriminate]. cbn in H. destruct (k empty_dir) as [s'|] eqn:E; [|discriminate]. cbn in H. injection H as <-. eauto.
Qed.

(** A loop whose steps each touch their own names leaves all of them as its steps did. *)
Lemma each_frame : forall A (f : A -> dir -> result dir) (own : A -> list (list Z)) (Q : A -> dir -> Prop),
  forall l, (forall x d d', In x l -> f x d = Ok d' -> Q x d' /\ frame (own x) d d') ->
  (forall x d d', In x l -> (forall n, In n (own x) -> dget d' n = dget d n) -> Q x d -> Q x d') ->
  forall d d', NoDup (flat_map own l) -> each f l d = Ok d' -> Forall (fun x => Q x d') l /\ frame (flat_map own l) d d'.
Proof.
  intros A f own Q. induction l as [|x l IH]; intros Hf HQ d d' HN H.
  - cbn in H. injection H as <-. split; auto. split; auto.
  - cbn in H. destruct (f x d) as [d1|] eqn:E; [|discriminate]. cbn [bind] in H. cbn [flat_map] in HN. apply NoDup_app_iff in HN. destruct HN as (N1 & N2 & N3).
    destruct (Hf x d d1 (or_introl eq_refl) E) as (Q1 & C1 & F1).
    destruct (IH (fun y e e' I => Hf y e e' (or_intror I)) (fun y e e' I => HQ y e e' (or_intror I)) d1 d' N2 H) as (Q2 & C2 & F2). split.
    + constructor; auto. apply (HQ x d1); [left; auto| |auto]. intros n I. apply F2. intros J. exact (N3 n I J).
    + split; [congruence|]. intros m Hm. cbn [flat_map] in Hm. rewrite F2, F1; auto; intros I; apply Hm; apply in_or_app; auto.
Qed.

Lemma all_of_Forall2 : forall A B (f : A -> result B) l r, all_of f l = Ok r <-> Forall2 (fun x y => f x = Ok y) l r.
Proof.
  intros A B f. induction l as [|x l IH]; intros r; cbn.
  - split; [intros [= <-]; constructor|intros H; inversion H; auto].
  - split.
    + intros H. destruct (f x) as [y|] eqn:E; [|discriminate]. cbn in H. destruct (all_of f l) as [ys|] eqn:F; [|discriminate]. cbn in H. injection H as <-. constructor; auto. apply IH. auto.
    + intros H. inversion H as [|? y ? ys E F]; subst. rewrite E. cbn. apply IH in F. rewrite F. auto.
Qed.
Lemma all_of_map : forall A B (f : A -> result B) (g : B -> A) l, (forall y, In y l -> f (g y) = Ok y) -> all_of f (map g l) = Ok l.
Proof.
  intros A B f g. induction l as [|y l IH]; intros H; cbn; auto. rewrite H by (left; auto). cbn. rewrite IH by (intros; apply H; right; auto). auto.
Qed.

(** ** Saving *)
Section Saving.
Variable names : Z -> Z -> list Z.

Lemma vec_name_some : forall cls pid n, n <> [] -> vec_name names cls pid (Some n) = n.
Proof. intros cls pid [|c n] H; [congruence|auto]. Qed.

(** what attach leaves in the directory *)
Definition attached (rec : dir -> obj -> result dir) (p : prop) (d : dir) : Prop :=
  match p with
  | PStream _ (Some n) (Some b) => dget d n = Some (File b)
  | PRef _ (Some n) (Some o) => exists s s', rec s o = Ok s' /\ dget d n = Some (Sub s')
  | PVec _ (Some n) _ _ items => Forall (fun x => exists s s', rec s (snd x) = Ok s' /\ dget d (element_storage n (fst x)) = Some (Sub s')) items
  | PSet _ (Some n) _ _ _ _ items => Forall (fun x => exists s s', rec s (snd (snd x)) = Ok s' /\ dget d (element_storage n (fst (snd x))) = Some (Sub s')) items
  | _ => True
  end.
Lemma attached_same : forall rec p d d', (forall n, In n (children p) -> dget d' n = dget d n) -> attached rec p d -> attached rec p d'.
Proof.
  intros rec p d d' H HA. destruct p as [| da [n|] [b|]| da [n|] [o|]|da [n|] ? ? items|da [n|] ? ? ? ? items| |]; cbn [attached children] in *; auto.
  - rewrite H; auto. left; auto.
  - destruct HA as (s & s' & E & G). exists s, s'. split; auto. rewrite H; auto. left; auto.
  - rewrite Forall_forall in *. intros x I. destruct (HA x I) as (s & s' & E & G). exists s, s'. split; auto. rewrite H; auto. apply (in_map (fun x => element_storage n (fst x))). auto.
  - rewrite Forall_forall in *. intros x I. destruct (HA x I) as (s & s' & E & G). exists s, s'. split; auto. rewrite H; auto. apply (in_map (fun x => element_storage n (fst (snd x)))). auto.
Qed.

Lemma elements_ok : forall A (nm : A -> list Z) (ob : A -> obj) rec (items : list A) d d', NoDup (map nm items) ->
  each (fun x d => in_sub d (nm x) (fun s => rec s (ob x))) items d = Ok d' ->
  Forall (fun x => exists s s', rec s (ob x) = Ok s' /\ dget d' (nm x) = Some (Sub s')) items /\ frame (map nm items) d d'.
Proof.
  intros A nm ob rec items d d' HN H.
  assert (E : map nm items = flat_map (fun x => [nm x]) items) by (clear; induction items; cbn; f_equal; auto).
  rewrite E in *. eapply (each_frame _ _ (fun x => [nm x]) (fun x d => exists s s', rec s (ob x) = Ok s' /\ dget d (nm x) = Some (Sub s'))); eauto.
  - intros x e e' _ G. apply in_sub_ok in G. destruct G as (s & s' & G & ->). split; [|apply frame_put]. exists s, s'. split; auto. apply get_put_same.
  - intros x e e' _ G (s & s' & G1 & G2). exists s, s'. split; auto. rewrite G; auto. left; auto.
Qed.

Lemma attach_prop_ok : forall rec Q cls pid p d d', prop_form Q p -> NoDup (children p) -> attach_prop names rec cls pid p d = Ok d' ->
  attached rec p d' /\ frame (children p) d d'.
Proof.
  intros rec Q cls pid p d d' HF HN H. destruct p as [f da|da nm c|da nm o|da nm next last items|da nm next last kp ks items|f da i k s r|f da nm i k s r]; cbn [attach_prop attached children prop_form] in *.
  - injection H as <-. split; auto. split; auto.
  - destruct HF as (n & e & b & -> & _ & _ & _ & ->). destruct (dget d n); [discriminate|]. destruct (entry_name n); [|discriminate]. cbn in H. injection H as <-. split; [apply get_put_same|apply frame_put].
  - destruct HF as (n & (-> & _) & HO). destruct o as [o|]; [|destruct HO]. apply in_sub_ok in H. destruct H as (s & s' & E & ->). split; [|apply frame_put]. exists s, s'. split; auto. apply get_put_same.
  - destruct HF as (n & (-> & Hne & _) & HO). rewrite vec_name_some in H by auto. apply (elements_ok _ (fun x => element_storage n (fst x)) (fun x => snd x)) in H; auto.
  - destruct HF as (n & size & (-> & _) & HO). cbn in H. apply (elements_ok _ (fun x : list Z * (Z * obj) => element_storage n (fst (snd x))) (fun x => snd (snd x))) in H; auto.
  - injection H as <-. split; auto. split; auto.
  - injection H as <-. destruct nm; split; auto; split; auto.
Qed.

(** what write_index leaves *)
Definition indexed (p : prop) (d : dir) : Prop :=
  match p with
  | PVec _ (Some n) next last items => exists b, vec_write next last (map fst items) = Ok b /\ dget d (index_stream n) = Some (File b)
  | PSet _ (Some n) next last (Some kpid) (Some ksize) items => exists b,
      set_write (SetIndex next last kpid ksize (map (fun x => (fst x, fst (snd x))) items)) = Ok b /\ dget d (index_stream n) = Some (File b)
  | PWeaks _ _ (Some n) (Some i) (Some k) (Some s) refs => exists b, weaks_write i k s refs = Ok b /\ dget d (index_stream n) = Some (File b)
  | _ => True
  end.
Lemma indexed_same : forall p d d', (forall n, In n (indexes p) -> dget d' n = dget d n) -> indexed p d -> indexed p d'.
Proof.
  intros p d d' H HI. destruct p as [| | |da [n|] ? ? items|da [n|] ? ? [kp|] [ks|] items| |f da [n|] [i|] [k|] [s|] refs]; cbn [indexed indexes] in *; auto;
    destruct HI as (b & E & G); exists b; split; auto; rewrite H; auto; left; auto.
Qed.
Lemma index_prop_ok : forall Q cls pid p d d', prop_form Q p -> index_prop names cls pid p d = Ok d' -> indexed p d' /\ frame (indexes p) d d'.
Proof.
  intros Q cls pid p d d' HF H. destruct p as [f da|da nm c|da nm o|da nm next last items|da nm next last kp ks items|f da i k s r|f da nm i k s r]; cbn [index_prop indexed indexes prop_form] in *;
    try (injection H as <-; split; auto; split; auto; fail).
  - destruct HF as (n & (-> & Hne & _) & HO). rewrite vec_name_some in H by auto. destruct (vec_write _ _ _) as [b|]; [|discriminate]. cbn [bind] in H. apply put_stream_ok in H. subst d'.
    split; [|apply frame_put]. exists b. split; auto. apply get_put_same.
  - destruct HF as (n & size & (-> & _) & HK & -> & HO). destruct kp as [kp|]; [|congruence]. cbn [text_of num bind] in H. destruct (set_write _) as [b|]; [|discriminate]. cbn [bind] in H. apply put_stream_ok in H. subst d'.
    split; [|apply frame_put]. exists b. split; auto. apply get_put_same.
  - destruct HF as (_ & n & size & (-> & _) & HI & HK & -> & HO). destruct i as [i|]; [|congruence]. destruct k as [k|]; [|congruence]. cbn [text_of num bind] in H. destruct (weaks_write _ _ _ _) as [b|]; [|discriminate]. cbn [bind] in H. apply put_stream_ok in H. subst d'.
    split; [|apply frame_put]. exists b. split; auto. apply get_put_same.
Qed.

Definition data_of (p : prop) : option (list Z) :=
  match p with PData _ d | PStream d _ _ | PRef d _ _ | PVec d _ _ _ _ | PSet d _ _ _ _ _ _ | PWeak _ d _ _ _ _ | PWeaks _ d _ _ _ _ _ => d end.
Lemma prop_data_ok : forall Q cls pid p, prop_form Q p -> prop_data names cls pid p = Ok (data_of p).
Proof.
  intros Q cls pid p HF. destruct p as [f da|da nm c|da nm o|da nm next last items|da nm next last kp ks items|f da i k s r|f da nm i k s r]; auto. cbn [prop_form] in HF.
  destruct HF as (n & (-> & Hne & _) & HO). cbn. destruct n; [congruence|auto].
Qed.

(** ** Reading what was saved *)
Lemma form_format : forall Q p, prop_form Q p -> In (prop_format p) formats.
Proof.
  intros Q p HF. destruct p; cbn [prop_form prop_format] in *; unfold formats; try (cbn; tauto).
  - cbn in HF. destruct HF as [<-|[<-|[<-|[]]]]; cbn; tauto.
  - destruct HF as [HF _]. cbn in HF. destruct HF as [<-|[<-|[]]]; cbn; tauto.
  - destruct HF as [HF _]. cbn in HF. destruct HF as [<-|[<-|[]]]; cbn; tauto.
Qed.

Lemma read_back : forall Q rec (W : dir -> obj -> result dir) d cls pid p e, prop_form Q p -> attached W p d -> indexed p d ->
  below (fun o => forall s s', W s o = Ok s' -> rec s' = Ok o) p ->
  data_of p = Some e -> read_prop names rec d cls pid (prop_format p) e = Ok p.
Proof.
  intros Q rec W d cls pid p e HF HA HI HB HD. destruct p as [f da|da nm c|da nm o|da nm next last items|da nm next last kp ks items|f da i k s r|f da nm i k s r]; cbn [prop_form attached indexed data_of prop_format below] in *.
  - subst da. cbn in HF. destruct HF as [<-|[<-|[<-|[]]]]; reflexivity.
  - destruct HF as (n & e' & b & -> & HN & HE & -> & ->). injection HD as <-. unfold read_prop. change (66 =? 66) with true. cbn iota.
    change (zdrop 1 (85 :: e')) with (zdrop (zlen [85]) ([85] ++ e')). rewrite zdrop_app_exact, (decode_encode_utf16le _ _ HN HE), HA. auto.
  - destruct HF as (n & (-> & _ & HN & e' & HE & ->) & HO). injection HD as <-. destruct o as [o|]; [|destruct HO]. destruct HA as (s & s' & E & G). unfold read_prop. change (34 =? 66) with false. change (34 =? 34) with true. cbn iota.
    rewrite (decode_encode_utf16le _ _ HN HE). unfold read_sub. rewrite G, (HB _ _ E). auto.
  - destruct HF as (n & (-> & Hne & HN & e' & HE & ->) & HO). injection HD as <-. destruct HI as (b & E & G). unfold read_prop. change (50 =? 66) with false. change (50 =? 34) with false. change (50 =? 50) with true. cbn iota. cbv zeta.
    rewrite (decode_encode_utf16le _ _ HN HE). rewrite vec_name_some by auto. replace (match Some n with Some (_ :: _) => Ok e' | _ => encode_utf16le n end) with (Ok e' : result (list Z)) by (destruct n; [congruence|auto]). cbn [bind].
    unfold read_stream. rewrite G. cbn [bind]. rewrite (C32_vector _ _ _ _ E). cbn [bind].
    rewrite (all_of_map _ _ (fun k => do o <- read_sub rec d (element_storage n k) ;; Ok (k, o)) fst). { auto. }
    intros [k o] I. rewrite Forall_forall in HA, HB. destruct (HA _ I) as (s & s' & E1 & E2). cbn [fst snd] in *. unfold read_sub. rewrite E2. rewrite (HB _ I _ _ E1). auto.
  - destruct HF as (n & size & (-> & Hne & HN & e' & HE & ->) & HK & -> & HS & HL & HU & HO). injection HD as <-. destruct kp as [kp|]; [|congruence]. destruct HI as (b & E & G). unfold read_prop.
    change (58 =? 66) with false. change (58 =? 34) with false. change (58 =? 50) with false. change (58 =? 58) with true. cbn iota. cbv zeta.
    rewrite (decode_encode_utf16le _ _ HN HE). unfold read_stream. rewrite G. cbn [bind]. rewrite (C32_set _ _ E).
    + cbn [bind si_refs si_next si_last si_pid si_size].
      rewrite (all_of_map _ _ (fun x => do o <- read_sub rec d (element_storage n (snd x)) ;; Ok (fst x, (snd x, o))) (fun x => (fst x, fst (snd x)))). { auto. }
      intros [u [k o]] I. rewrite Forall_forall in HA, HB. destruct (HA _ I) as (s & s' & E1 & E2). cbn [fst snd] in *. unfold read_sub. rewrite E2. rewrite (HB _ I _ _ E1). auto.
    + cbn. auto.
    + cbn [si_refs si_size]. rewrite Forall_forall in *. intros x I. apply in_map_iff in I. destruct I as (y & <- & I). cbn. auto.
    + cbn [si_refs]. rewrite map_map. cbn [fst]. auto.
  - destruct HF as (Hf & i' & k' & r' & -> & -> & -> & -> & e' & HE & ->). injection HD as <-. pose proof (C32_weak_value _ _ _ _ HE) as X.
    cbn in Hf. destruct Hf as [<-|[<-|[]]]; unfold read_prop; cbn [Z.eqb Pos.eqb orb]; rewrite X; auto.
  - destruct HF as (Hf & n & size & (-> & Hne & HN & e' & HE & ->) & H1 & H2 & -> & HS & HL). injection HD as <-. destruct i as [i|]; [|congruence]. destruct k as [k|]; [|congruence]. destruct HI as (b & E & G).
    pose proof (C32_weak_array _ _ _ _ _ E HS HL) as X. cbn in Hf. destruct Hf as [<-|[<-|[]]]; unfold read_prop; cbn [Z.eqb Pos.eqb orb]; rewrite (decode_encode_utf16le _ _ HN HE); unfold read_stream; rewrite G; cbn [bind]; rewrite X; auto.
Qed.
End Saving.

Lemma class_set : forall d c, class_of (set_class d c) = c.
Proof. intros [] c. auto. Qed.

(** Whatever saving an object writes, over whatever was in the directory, is read back as the object:
    its class, its properties in their order, the content of its streams, and the same of every object
    below it. *)
Theorem C63_roundtrip : forall names o d d' fuel, well_formed o -> write_obj names d o = Ok d' -> (depth o <= fuel)%nat ->
  read_obj names fuel d' = Ok o.
Proof.
  intros names o. induction o as [cls props IH] using obj_induct. intros d d' fuel HW H HD. cbn [well_formed] in HW. destruct HW as (NP & ND & HF). rewrite every_Forall in HF.
  destruct fuel as [|fuel]; [cbn in HD; lia|]. cbn [depth] in HD. apply le_S_n in HD. rewrite most_le in HD.
  cbn [write_obj] in H. destruct (each _ props (set_class d cls)) as [d1|] eqn:E1; [|discriminate]. cbn [bind] in H.
  apply NoDup_cons_iff in ND. destruct ND as [NI ND]. apply NoDup_app_iff in ND. destruct ND as (N1 & N2 & N3). rewrite Forall_forall in HF.
  assert (NC : forall x, In x props -> NoDup (children (snd x))).
  { clear - N1. intros x I. apply in_split in I. destruct I as (a & b & ->). rewrite flat_map_app in N1. apply NoDup_app_iff in N1. destruct N1 as (_ & N1 & _). cbn [flat_map] in N1. apply NoDup_app_iff in N1. tauto. }
  apply (each_frame _ _ (fun x => children (snd x)) (fun x d => attached (write_obj names) (snd x) d)) in E1; auto.
  2:{ intros x e e' I G. eapply attach_prop_ok; eauto. }
  2:{ intros x e e' I G. apply attached_same. auto. }
  destruct E1 as (A1 & C1 & F1). rewrite class_set in C1.
  unfold save_obj in H. destruct (all_of _ props) as [es|] eqn:E2; [|discriminate]. cbn [bind] in H.
  assert (Hes : es = map (fun x => (fst x, prop_format (snd x), data_of (snd x))) props).
  { apply all_of_Forall2 in E2. clear - E2 HF. induction E2 as [|x y l r E F G]; auto. cbn [map]. rewrite (prop_data_ok names _ _ _ _ (HF x (or_introl eq_refl))) in E. cbn in E. f_equal; [congruence|]. apply G. intros. apply HF. right. auto. }
  destruct (encode_properties es) as [b|] eqn:E3; [|discriminate]. cbn [bind] in H. destruct (put_stream d1 _ b) as [d2|] eqn:E4; [|discriminate]. cbn [bind] in H. apply put_stream_ok in E4.
  apply (each_frame _ _ (fun x => indexes (snd x)) (fun x d => indexed (snd x) d)) in H; auto.
  2:{ intros x e e' I G. eapply index_prop_ok; eauto. }
  2:{ intros x e e' I G. apply indexed_same. auto. }
  destruct H as (A3 & C3 & F3).
  destruct (C28_roundtrip [] es b) as (rs & R1 & R2).
  { unfold write_properties. rewrite E3. auto. }
  { rewrite Hes, map_map. cbn [fst]. auto. }
  { rewrite Hes. rewrite Forall_forall. intros x I. apply in_map_iff in I. destruct I as (y & <- & I). cbn [fst snd]. eapply form_format; eauto. }
  assert (GP : dget d' (codes "properties") = Some (File b)).
  { rewrite F3, E4, get_put_same; auto. intros I. apply NI. apply in_or_app. auto. }
  assert (CD : class_of d' = cls). { rewrite C3, E4. destruct d1. cbn in *. auto. }
  assert (AD : forall x, In x props -> attached (write_obj names) (snd x) d').
  { intros x I. apply (attached_same _ _ d1); [|rewrite Forall_forall in A1; auto]. intros n J.
    assert (In n (flat_map (fun x => children (snd x)) props)) by (apply in_flat_map; eauto).
    rewrite F3 by (intros K; exact (N3 n H K)). rewrite E4, dget_put. destruct (zlist_eqb (codes "properties") n) eqn:Z; auto. apply zlist_eqb_spec in Z. subst n. exfalso. apply NI. apply in_or_app. auto. }
  cbn [read_obj]. destruct d' as [c its]. cbn [class_of] in CD. subst c. rewrite GP, R1. cbn [bind].
  assert (RS : rs = map (fun x => (fst x, (prop_format (snd x), match data_of (snd x) with Some v => v | None => [] end))) props /\ forall x, In x props -> data_of (snd x) <> None).
  { rewrite Hes in R2. clear - R2. revert rs R2. induction props as [|x l IHl]; intros [|r rs] R2; cbn [map] in R2; try discriminate. { split; [auto|intros x []]. }
    injection R2 as X1 X2 X3 X4. destruct (IHl _ X4) as (-> & Y). cbn [map]. rewrite <- X3. split; [destruct r as [? []]; cbn in *; congruence|]. intros y [<-|I]; auto. congruence. }
  destruct RS as (-> & RN).
  rewrite (all_of_map _ _ (fun e => do p <- read_prop names (read_obj names fuel) (Dir cls its) cls (fst e) (fst (snd e)) (snd (snd e)) ;; Ok (fst e, p)) (fun x => (fst x, (prop_format (snd x), match data_of (snd x) with Some v => v | None => [] end)))). { auto. }
  intros [pid p] I. cbn [fst snd]. specialize (RN _ I). cbn [snd] in RN. destruct (data_of p) as [e|] eqn:DE; [|congruence].
  rewrite (read_back names well_formed (read_obj names fuel) (write_obj names)); auto.
  - apply (HF _ I).
  - apply (AD _ I).
  - rewrite Forall_forall in A3. apply (A3 _ I).
  - rewrite Forall_forall in IH. specialize (IH _ I). rewrite Forall_forall in HD. specialize (HD _ I). specialize (HF _ I). cbn [snd] in *.
    destruct p as [| |da nm [o|]|da nm next last items|da nm next last kp ks items| |]; cbn [below prop_form] in *; auto.
    + destruct HF as (n & _ & W). intros s s' E. eapply IH; eauto.
    + destruct HF as (n & _ & W). rewrite every_Forall in W. rewrite most_le in HD. rewrite Forall_forall in *. intros x J s s' E. eapply IH; eauto.
    + destruct HF as (n & size & _ & _ & _ & _ & _ & _ & W). rewrite every_Forall in W. rewrite most_le in HD. rewrite Forall_forall in *. intros x J s s' E. eapply IH; eauto.
Qed.
Print Assumptions C63_roundtrip.
