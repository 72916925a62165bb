(** C64: copies of objects within a file and to another file. *)
From Verif Require Import Base BaseFacts Codec CodecFacts Text TextFacts TypesModel TypesFacts ObjModel PropsObj TreeModel PropsTree PropsTreeMore.
From Coq Require Import ZArith List Bool Lia String Arith.
Import ListNotations.
Open Scope Z_scope.

Lemma all_of_total : forall A B (f : A -> result B) (R : A -> B -> Prop) l, (forall x, In x l -> exists y, f x = Ok y /\ R x y) ->
  exists r, all_of f l = Ok r /\ Forall2 R l r.
Proof.
  intros A B f R. induction l as [|x l IH]; intros H. { exists []. split; auto. }
  destruct (H x (or_introl eq_refl)) as (y & E & Y). destruct IH as (r & E' & F). { intros z I. apply H. right. auto. }
  exists (y :: r). split; [|constructor; auto]. cbn. rewrite E. cbn. rewrite E'. auto.
Qed.
Lemma all_of_ext : forall A B (f g : A -> result B) l, (forall x, In x l -> f x = g x) -> all_of f l = all_of g l.
Proof. intros A B f g. induction l as [|x l IH]; intros H; auto. cbn. rewrite H by (left; auto). rewrite IH by (intros; apply H; right; auto). auto. Qed.
Lemma all_of_map_l : forall A B C (f : B -> result C) (g : A -> B) l, all_of f (map g l) = all_of (fun x => f (g x)) l.
Proof. intros A B C f g. induction l as [|x l IH]; auto. cbn. rewrite IH. auto. Qed.
Lemma each_ext : forall A S (f g : A -> S -> result S) l, (forall x d, In x l -> f x d = g x d) -> forall d, each f l d = each g l d.
Proof. intros A S f g. induction l as [|x l IH]; intros H d; auto. cbn. rewrite H by (left; auto). destruct (g x d); auto. cbn. apply IH. intros; apply H; right; auto. Qed.
Lemma each_map : forall A B S (f : B -> S -> result S) (g : A -> B) l d, each f (map g l) d = each (fun x => f (g x)) l d.
Proof. intros A B S f g. induction l as [|x l IH]; intros d; auto. cbn. destruct (f (g x) d); auto. cbn. apply IH. Qed.

(** ** Within one file *)

(** An object without the key ids kept beside single weak references; everything else stays. *)
Fixpoint erase (o : obj) : obj :=
  match o with Obj cls props => Obj cls (map (fun x => (fst x,
    match snd x with
    | PRef d n (Some o) => PRef d n (Some (erase o))
    | PVec d n next last items => PVec d n next last (map (fun y => (fst y, erase (snd y))) items)
    | PSet d n next last kpid ksize items => PSet d n next last kpid ksize (map (fun y => (fst y, (fst (snd y), erase (snd (snd y))))) items)
    | PWeak f d index _ ksize ref => PWeak f d index None ksize ref
    | p => p
    end)) props)
  end.
(** The local keys of a vector are below its length, as they are until an element is removed or
    inserted and others appended. *)
Fixpoint dense (o : obj) : Prop :=
  match o with Obj cls props => every (fun x => match snd x with
    | PRef _ _ (Some o) => dense o
    | PVec _ _ _ _ items => Forall (fun y => fst y < zlen items) items /\ every (fun y => dense (snd y)) items
    | PSet _ _ _ _ _ _ items => every (fun y => dense (snd (snd y))) items
    | _ => True
    end) props
  end.

(** Nothing of what is written depends on these ids. *)
Lemma write_erase : forall names o d, write_obj names d (erase o) = write_obj names d o.
Proof.
  intros names o. induction o as [cls props IH] using obj_induct. intros d. cbn [erase write_obj]. rewrite each_map. rewrite Forall_forall in IH.
  rewrite (each_ext _ _ _ (fun x d => attach_prop names (write_obj names) cls (fst x) (snd x) d)).
  2:{ intros [pid p] e I. specialize (IH _ I). cbn [fst snd] in *. destruct p as [| |da nm [o|]|da nm next last items|da nm next last kp ks items| |]; cbn [attach_prop below] in *; auto.
      - destruct nm; auto. unfold in_sub. destruct (dget e l) as [[|s]|]; auto. { rewrite IH. auto. } destruct (entry_name l); auto. cbn. rewrite IH. auto.
      - rewrite each_map. apply each_ext. intros x e' J. rewrite Forall_forall in IH. cbn [fst snd]. unfold in_sub. destruct (dget e' _) as [[|s]|]; auto. { rewrite IH by auto. auto. } destruct (entry_name _); auto. cbn [bind]. rewrite IH by auto. auto.
      - destruct nm; auto. cbn [text_of bind]. rewrite each_map. apply each_ext. intros x e' J. rewrite Forall_forall in IH. cbn [fst snd]. unfold in_sub. destruct (dget e' _) as [[|s]|]; auto. { rewrite IH by auto. auto. } destruct (entry_name _); auto. cbn [bind]. rewrite IH by auto. auto. }
  destruct (each _ props (set_class d cls)) as [d1|]; auto. cbn [bind]. unfold save_obj. rewrite all_of_map_l.
  rewrite (all_of_ext _ _ _ (fun x => do v <- prop_data names cls (fst x) (snd x) ;; Ok (fst x, prop_format (snd x), v))).
  2:{ intros [pid p] I. cbn [fst snd]. destruct p as [| |da nm [o|]|da nm next last items|da nm next last kp ks items| |]; auto. cbn [prop_data vec_data prop_format]. destruct nm as [[|]|], items; auto. }
  destruct (all_of _ props); auto. cbn [bind]. destruct (encode_properties a); auto. cbn [bind]. destruct (put_stream d1 _ a0); auto. cbn [bind]. rewrite each_map. apply each_ext.
  intros [pid p] e I. cbn [fst snd]. destruct p as [| |da nm [o|]|da nm next last items|da nm next last kp ks items| |]; auto; cbn [index_prop]; rewrite ?map_map, ?zlen_map; auto.
Qed.

Lemma erase_props : forall cls ps qs, Forall2 (fun x y => erase (Obj cls [y]) = erase (Obj cls [x])) ps qs -> erase (Obj cls qs) = erase (Obj cls ps).
Proof.
  intros cls ps qs H. cbn [erase]. f_equal. induction H as [|x y l r H1 H2 IH]; auto. cbn [map]. f_equal; auto. cbn [erase map] in H1. injection H1 as H1. cbn. congruence.
Qed.

(** A copy of an object the library built is made without an exception, is the same object apart from the
    key ids beside its single weak references ([C64_weak_key_refuted]), and is written as the same bytes
    in the same places; so by [C63_roundtrip] it is read back as the object it is a copy of. *)
Theorem C64_same : forall names, (forall cls pid, Forall bmp (names cls pid)) -> forall o, made names o -> fits o -> dense o ->
  exists c, copy_obj names o = Ok c /\ erase c = erase o /\ (forall d, write_obj names d c = write_obj names d o) /\
    forall d d' fuel, write_obj names d c = Ok d' -> (depth o <= fuel)%nat -> read_obj names fuel d' = Ok o.
Proof.
  intros names NB o HM HT HD.
  enough (G : exists c, copy_obj names o = Ok c /\ erase c = erase o).
  { destruct G as (c & E & S). exists c. split; auto. split; auto. assert (W : forall d, write_obj names d c = write_obj names d o) by (intros d; rewrite <- (write_erase names c), S; apply write_erase).
    split; auto. intros d d' fuel H L. rewrite W in H. eapply C63_roundtrip; eauto. eapply C63_library; eauto. }
  revert HM HT HD. induction o as [cls props IH] using obj_induct. cbn [made fits dense copy_obj]. intros (HN & HP & HM) (HL & HT) HD. rewrite every_Forall in *. rewrite Forall_forall in *.
  destruct (all_of_total _ _ (fun x => do p <- copy_prop names (copy_obj names) cls (fst x) (snd x) ;; Ok (fst x, p)) (fun x y => erase (Obj cls [y]) = erase (Obj cls [x])) props) as (r & E & F).
  2:{ rewrite E. cbn [bind]. eexists. split; [reflexivity|]. apply erase_props. auto. }
  intros [pid p] I. specialize (IH _ I). specialize (HP _ I). specialize (HM _ I). specialize (HT _ I). specialize (HD _ I). cbn [fst snd] in *.
  destruct (made_data names NB cls pid p HP HM HT) as (e & DE & _). destruct HM as (HF & HM).
  destruct p as [f da|da nm c|da nm o|da nm next last items|da nm next last kp ks items|f da i k s q|f da nm i k s q]; cbn [data_of copy_prop prop_form prop_fits below] in *; subst da; cbn [copy_data bind].
  - eexists. split; reflexivity.
  - destruct HF as (n & e' & b & -> & _ & EN & ED & ->). injection HM as ->. cbn [copy_stream]. unfold stream_data. rewrite EN. cbn [bind].
    pose proof (gen_entry (names cls) (GRef pid)) as GE. cbn [gen_name gen_ok gpid] in GE. rewrite GE by (auto; lia). cbn [bind]. eexists. split; [reflexivity|]. congruence.
  - destruct HF as (n & _ & HO). destruct o as [o|]; [|destruct HO]. destruct (IH HO HT HD) as (c & EC & ES). rewrite EC. cbn [bind]. eexists. split; [reflexivity|]. cbn [erase map fst snd]. rewrite ES. auto.
  - destruct HF as (n & (-> & _ & _ & e' & EN & _) & HO). destruct HM as (HM & _). injection HM as ->. rewrite EN. cbn [bind]. destruct HT as (_ & _ & _ & _ & HT). destruct HD as (HD1 & HD2). rewrite every_Forall in *. rewrite Forall_forall in *.
    destruct (all_of_total _ _ (fun x : Z * obj => guard fst x <? zlen items else IndexError ;; do c <- copy_obj names (snd x) ;; Ok (fst x, c)) (fun x y => fst y = fst x /\ erase (snd y) = erase (snd x)) items) as (r & E & F).
    { intros x J. specialize (HD1 _ J). replace (fst x <? zlen items) with true by lia. destruct (IH _ J (HO _ J) (HT _ J) (HD2 _ J)) as (c & EC & ES). rewrite EC. cbn [bind]. eexists. split; [reflexivity|]. auto. }
    rewrite E. cbn [bind]. eexists. split; [reflexivity|]. cbn [erase map fst snd]. do 4 f_equal. clear - F. induction F as [|x y l r [F1 F2] F3 IHF]; auto. cbn [map]. rewrite F1, F2, IHF. auto.
  - destruct HF as (n & size & _ & _ & _ & _ & _ & _ & HO). destruct HT as (_ & _ & _ & _ & _ & HT). rewrite every_Forall in *. rewrite Forall_forall in *.
    destruct (all_of_total _ _ (fun x : list Z * (Z * obj) => do c <- copy_obj names (snd (snd x)) ;; Ok (fst x, (fst (snd x), c))) (fun x y => fst y = fst x /\ fst (snd y) = fst (snd x) /\ erase (snd (snd y)) = erase (snd (snd x))) items) as (r & E & F).
    { intros x J. destruct (IH _ J (HO _ J) (HT _ J) (HD _ J)) as (c & EC & ES). rewrite EC. cbn [bind]. eexists. split; [reflexivity|]. auto. }
    rewrite E. cbn [bind]. eexists. split; [reflexivity|]. cbn [erase map fst snd]. do 4 f_equal. clear - F. induction F as [|x y l r (F1 & F2 & F3) F4 IHF]; auto. cbn [map]. rewrite F1, F2, F3, IHF. auto.
  - eexists. split; reflexivity.
  - eexists. split; reflexivity.
Qed.

(** ** To another file *)

Definition every2 {A B} (P : A -> B -> Prop) : list A -> list B -> Prop :=
  fix go l r := match l, r with [], [] => True | x :: l', y :: r' => P x y /\ go l' r' | _, _ => False end.
Lemma every2_Forall2 : forall A B (P : A -> B -> Prop) l r, every2 P l r <-> Forall2 P l r.
Proof.
  intros A B P. induction l as [|x l IH]; intros [|y r]; cbn; split; intros H; try (constructor; fail); try contradiction; try (inversion H; fail); auto.
  - destruct H. constructor; auto. apply IH. auto.
  - inversion H; subst. split; auto. apply IH. auto.
Qed.

(** The same content: class, properties at the pids of the other file, values, streams, the objects below in
    the same order and under the same keys, and the same targets of weak references, through the entry of
    the other file's table and the key the other file's class has. The next free key is free. *)
Definition like_prop (t : target) (cls pid : Z) (rec : obj -> obj -> Prop) (p q : prop) : Prop :=
  match p, q with
  | PData f d, PData g e => g = f /\ e = d
  | PStream _ _ c, PStream _ _ c' => c' = c
  | PRef _ _ (Some o), PRef _ _ (Some o') => rec o o'
  | PVec _ _ _ _ items, PVec _ _ next _ items' => every2 (fun x y => rec (snd x) (snd y)) items items' /\ Forall (fun x => fst x < next) items'
  | PSet _ _ _ _ _ _ items, PSet _ _ next _ kpid _ items' => every2 (fun x y => fst y = fst x /\ rec (snd (snd x)) (snd (snd y))) items items' /\
      Forall (fun x => fst (snd x) < next) items' /\ kpid = Some (fst (t_key t cls pid))
  | PWeak f _ _ _ _ r, PWeak g _ index kpid _ r' => g = f /\ r' = r /\ index = Some (t_index t cls pid) /\ kpid = Some (fst (t_key t cls pid))
  | PWeaks f _ _ _ _ _ r, PWeaks g _ _ index kpid _ r' => g = f /\ r' = r /\ index = Some (t_index t cls pid) /\ kpid = Some (fst (t_key t cls pid))
  | _, _ => False
  end.
(** Pids from 0x8000 on are those of the other file, others the same in all files. *)
Definition moved (t : target) (cls pid q : Z) : Prop := if Z_lt_dec pid 32768 then q = pid else t_pid t cls pid = Some q.
Lemma moved_pid : forall t cls pid q, moved t cls pid q <-> new_pid t cls pid = Ok q.
Proof.
  intros t cls pid q. unfold moved, new_pid. destruct (Z_lt_dec pid 32768) as [H|H]; [replace (32768 <=? pid) with false by lia|replace (32768 <=? pid) with true by lia].
  - split; [intros ->; auto|intros [= ->]; auto].
  - destruct (t_pid t cls pid); split; congruence.
Qed.
Fixpoint like (t : target) (o c : obj) : Prop :=
  match o, c with Obj cls ps, Obj cls' qs =>
    cls' = cls /\ every2 (fun x y => moved t cls (fst x) (fst y) /\ like_prop t cls (fst y) (like t) (snd x) (snd y)) ps qs
  end.

(** The other file has the properties, under different pids, with keys of the same size, and the targets
    of the weak references; no set or weak reference array is empty, and no vector that would have another
    name there. *)
Definition prop_suits (t : target) (rec : obj -> Prop) (cls pid : Z) (p : prop) : Prop :=
  match p with
  | PRef _ _ (Some o) => rec o
  | PVec _ name _ _ items => (items <> [] \/ name = Some (mangle_name (t_name t cls pid) pid 22)) /\ every (fun x => rec (snd x)) items
  | PSet _ _ _ _ _ ksize items => items <> [] /\ every (fun x => rec (snd (snd x))) items /\ ksize = Some (snd (t_key t cls pid)) /\ 0 <= fst (t_key t cls pid) < 65536
  | PWeak _ _ _ _ ksize _ => ksize = Some (snd (t_key t cls pid)) /\ 0 <= fst (t_key t cls pid) < 65536 /\ 0 <= t_index t cls pid < 65536
  | PWeaks _ _ _ _ _ ksize refs => refs <> [] /\ forallb (t_has t cls pid) refs = true /\ ksize = Some (snd (t_key t cls pid)) /\ 0 <= fst (t_key t cls pid) < 65536 /\ 0 <= t_index t cls pid < 65536
  | _ => True
  end.
Fixpoint suits (t : target) (o : obj) : Prop :=
  match o with Obj cls props =>
    every (fun x => exists q, moved t cls (fst x) q /\ 0 <= q < 65536 /\ prop_suits t (suits t) cls q (snd x)) props /\
    forall x y q, In x props -> In y props -> moved t cls (fst x) q -> moved t cls (fst y) q -> fst x = fst y
  end.

(** An object after its vectors without a name were asked for it. *)
Definition settle_prop (names : Z -> Z -> list Z) (rec : obj -> obj) (cls pid : Z) (p : prop) : prop :=
  match p with
  | PRef d n (Some o) => PRef d n (Some (rec o))
  | PVec d n next last items => PVec d (match n with None => Some (mangle_name (names cls pid) pid 22) | _ => n end) next last (map (fun x => (fst x, rec (snd x))) items)
  | PSet d n next last kpid ksize items => PSet d n next last kpid ksize (map (fun x => (fst x, (fst (snd x), rec (snd (snd x))))) items)
  | p => p
  end.
Fixpoint settle (names : Z -> Z -> list Z) (o : obj) : obj :=
  match o with Obj cls props => Obj cls (map (fun x => (fst x, settle_prop names (settle names) cls (fst x) (snd x))) props) end.

Lemma vec_name_settle : forall names cls pid n, vec_name names cls pid (match n with None => Some (mangle_name (names cls pid) pid 22) | _ => n end) = vec_name names cls pid n.
Proof. intros names cls pid [n|]; auto. cbn [vec_name]. destruct (mangle_name _ _ _); auto. Qed.
Lemma settle_write : forall names o d, made names (settle names o) -> write_obj names d (settle names o) = write_obj names d o.
Proof.
  intros names o. induction o as [cls props IH] using obj_induct. intros d HM. cbn [settle write_obj made] in *. destruct HM as (_ & _ & HM). rewrite every_Forall, Forall_map in HM. cbn [fst snd] in HM. rewrite each_map. rewrite Forall_forall in IH, HM.
  rewrite (each_ext _ _ _ (fun x d => attach_prop names (write_obj names) cls (fst x) (snd x) d)).
  2:{ intros [pid p] e I. specialize (IH _ I). specialize (HM _ I). destruct HM as (HM & _). cbn [fst snd] in *.
      destruct p as [| |da nm [o|]|da nm next last items|da nm next last kp ks items| |]; cbn [attach_prop below settle_prop prop_form] in *; auto.
      - destruct nm; auto. destruct HM as (n & _ & HM). unfold in_sub. destruct (dget e l) as [[|s]|]; auto. { rewrite IH; auto. } destruct (entry_name l); auto. cbn. rewrite IH; auto.
      - rewrite vec_name_settle. destruct HM as (n & _ & HM). rewrite every_Forall, Forall_map in HM. rewrite Forall_forall in IH, HM. cbn [fst snd] in HM. rewrite each_map. apply each_ext. intros x e' J. cbn [fst snd]. unfold in_sub.
        destruct (dget e' _) as [[|s]|]; auto. { rewrite IH; auto. } destruct (entry_name _); auto. cbn [bind]. rewrite IH; auto.
      - destruct HM as (n & size & _ & _ & _ & _ & _ & _ & HM). rewrite every_Forall, Forall_map in HM. rewrite Forall_forall in IH, HM. cbn [fst snd] in HM. destruct nm; auto. cbn [text_of bind]. rewrite each_map. apply each_ext. intros x e' J. cbn [fst snd]. unfold in_sub.
        destruct (dget e' _) as [[|s]|]; auto. { rewrite IH; auto. } destruct (entry_name _); auto. cbn [bind]. rewrite IH; auto. }
  destruct (each _ props (set_class d cls)) as [d1|]; auto. cbn [bind]. unfold save_obj. rewrite all_of_map_l.
  rewrite (all_of_ext _ _ _ (fun x => do v <- prop_data names cls (fst x) (snd x) ;; Ok (fst x, prop_format (snd x), v))).
  2:{ intros [pid p] I. specialize (HM _ I). destruct HM as (HM & HG). cbn [fst snd] in *. destruct p as [| |da nm [o|]|da nm next last items|da nm next last kp ks items| |]; auto. cbn [settle_prop prop_data vec_data prop_format prop_form] in *.
      destruct HM as (n & (HN & NE & _ & e & EN & ->) & _). destruct nm as [[|c nm]|].
      - congruence.
      - destruct items; auto.
      - injection HN as HN. subst n. destruct (mangle_name (names cls pid) pid 22) as [|c m] eqn:Em; [congruence|]. destruct items; auto. cbn [map vec_data]. rewrite ?Em, EN. auto. }
  destruct (all_of _ props); auto. cbn [bind]. destruct (encode_properties a); auto. cbn [bind]. destruct (put_stream d1 _ a0); auto. cbn [bind]. rewrite each_map. apply each_ext.
  intros [pid p] e I. cbn [fst snd]. destruct p as [| |da nm [o|]|da nm next last items|da nm next last kp ks items| |]; auto; cbn [settle_prop index_prop]; rewrite ?vec_name_settle, ?map_map; auto.
Qed.
Lemma settle_depth : forall names o, depth (settle names o) = depth o.
Proof.
  intros names o. induction o as [cls props IH] using obj_induct. cbn [settle depth]. f_equal. rewrite Forall_forall in IH.
  assert (X : forall A (f g : A -> nat) l, (forall x, In x l -> f x = g x) -> most f l = most g l) by (intros A f g; induction l as [|x l IHl]; intros H; auto; cbn [most]; rewrite (H x) by (left; auto); rewrite IHl by (intros; apply H; right; auto); auto).
  assert (Y : forall A B (f : B -> nat) (g : A -> B) l, most f (map g l) = most (fun x => f (g x)) l) by (intros A B f g; induction l as [|x l IHl]; auto; cbn [map most]; rewrite IHl; auto).
  rewrite Y. apply X. intros [pid p] I. specialize (IH _ I). cbn [fst snd] in *. destruct p as [| |da nm [o|]|da nm next last items|da nm next last kp ks items| |]; cbn [settle_prop below] in *; auto; rewrite Y; apply X; rewrite Forall_forall in IH; cbn [fst snd]; auto.
Qed.

Lemma Forall2_map_r : forall A B C (R : A -> C -> Prop) (g : B -> C) l r, Forall2 R l (map g r) -> Forall2 (fun x y => R x (g y)) l r.
Proof. intros A B C R g l r H. remember (map g r) as m. revert r Heqm. induction H; intros [|z r] E; try discriminate; constructor; injection E as -> ->; auto. Qed.
Lemma Forall2_zlen : forall A B (R : A -> B -> Prop) l r, Forall2 R l r -> zlen r = zlen l.
Proof. intros A B R l r H. unfold zlen. induction H; cbn [List.length]; lia. Qed.
Lemma combine_snd : forall A B (ks : list A) (vs : list B), List.length ks = List.length vs -> map snd (combine ks vs) = vs.
Proof. induction ks as [|k ks IH]; intros [|v vs] L; cbn in *; try lia; auto. rewrite IH; auto. Qed.
Lemma numbered : forall A (cs : list A), map fst (combine (zseq 0 (zlen cs)) cs) = zseq 0 (zlen cs) /\ map snd (combine (zseq 0 (zlen cs)) cs) = cs /\ zlen (combine (zseq 0 (zlen cs)) cs) = zlen cs /\
  forall x, In x (combine (zseq 0 (zlen cs)) cs) -> 0 <= fst x < zlen cs.
Proof.
  intros A cs. pose proof (zlen_nonneg _ cs). assert (L : List.length (zseq 0 (zlen cs)) = List.length cs) by (unfold zseq; rewrite map_length, seq_length; unfold zlen; lia).
  split; [apply (combine_fst Z.eqb Z.eqb_eq); auto|]. split; [apply combine_snd; auto|]. split; [unfold zlen at 1 3; rewrite combine_length, L, Nat.min_id; auto|].
  intros [k v] I. apply in_combine_l in I. apply In_zseq in I. cbn. lia.
Qed.
Lemma mangled_named : forall (names : Z -> Z -> list Z) cls pid size, (forall cls pid, Forall bmp (names cls pid)) -> 0 <= pid ->
  exists e, encode_utf16le (mangle_name (names cls pid) pid size) = Ok e /\ named (Some e) (Some (mangle_name (names cls pid) pid size)) (mangle_name (names cls pid) pid size).
Proof.
  intros names cls pid size NB Hp. pose proof (mangle_bmp (names cls pid) pid size Hp (NB cls pid)) as B. destruct (bmp_le _ B) as (e & E & _). exists e. split; auto.
  split; auto. split; [unfold mangle_name; destruct (squeeze_name _ _); discriminate|]. split; [|eauto]. intros I. rewrite Forall_forall in B. specialize (B 0 I). unfold bmp in B. lia.
Qed.

(** A copy to another file keeps the whole content, can be saved there, and is read back. *)
Theorem C64_other : forall names t, (forall cls pid, Forall bmp (t_name t cls pid)) -> forall o, made names o -> fits o -> suits t o ->
  exists c, copy_to t o = Ok c /\ like t o c /\
    (exists d', write_obj (t_name t) empty_dir c = Ok d') /\
    forall d d' fuel, write_obj (t_name t) d c = Ok d' -> (depth c <= fuel)%nat -> read_obj (t_name t) fuel d' = Ok (settle (t_name t) c).
Proof.
  intros names t NB o HM HT HS.
  set (st := settle (t_name t)). enough (G : exists c, copy_to t o = Ok c /\ like t o c /\ made (t_name t) (st c) /\ fits (st c)).
  { destruct G as (c & E & L & M & F). exists c. split; auto. split; auto. unfold st in *. split; [rewrite <- settle_write by auto; apply C63_saves; auto|]. intros d d' fuel W D. rewrite <- settle_write in W by auto. eapply C63_roundtrip; eauto; [eapply C63_library; eauto|]. rewrite settle_depth. auto. }
  revert HM HT HS. induction o as [cls props IH] using obj_induct. cbn [made fits suits copy_to]. intros (HN & HP & HM) (HL & HT) (HS & HI). rewrite every_Forall in *. rewrite Forall_forall in *.
  destruct (all_of_total _ _ (fun x => do q <- new_pid t cls (fst x) ;; do p <- copy_prop_to t (copy_to t) cls q (snd x) ;; Ok (q, p))
     (fun x y => moved t cls (fst x) (fst y) /\ 0 <= fst y < 65536 /\ like_prop t cls (fst y) (like t) (snd x) (snd y) /\ prop_made (t_name t) (made (t_name t)) cls (fst y) (settle_prop (t_name t) st cls (fst y) (snd y)) /\ prop_fits fits (settle_prop (t_name t) st cls (fst y) (snd y))) props) as (r & E & F).
  2:{ rewrite E. cbn [bind].
      assert (ND : NoDup (map fst r)).
      { clear - HN HI F. revert HN HI. induction F as [|x y l r (F1 & _) F2 IHF]; intros HN HI; cbn [map] in *; constructor; inversion HN; subst.
        - intros I. apply in_map_iff in I. destruct I as (z & E & I). apply H1.
          assert (X : exists w, In w l /\ moved t cls (fst w) (fst z)) by (clear - F2 I; induction F2 as [|w v l r (G & _) G2 IHG]; [destruct I|]; destruct I as [<-|I]; [exists w; split; auto; left; auto|]; destruct (IHG I) as (w' & W1 & W2); exists w'; split; auto; right; auto).
          destruct X as (w & W1 & W2). apply in_map_iff. exists w. split; auto. symmetry. apply (HI x w (fst y)); [left; auto|right; auto|auto|congruence].
        - apply IHF; auto. intros a b q A B. apply HI; right; auto. }
      rewrite (dict_of_new Z.eqb Z.eqb_eq) by auto. cbn [app]. eexists. split; [reflexivity|]. unfold st. cbn [like made fits settle]. fold st. rewrite !every_Forall, every2_Forall2, !Forall_map, map_map, zlen_map. cbn [fst snd].
      assert (FR : Forall (fun y => 0 <= fst y < 65536 /\ prop_made (t_name t) (made (t_name t)) cls (fst y) (settle_prop (t_name t) st cls (fst y) (snd y)) /\ prop_fits fits (settle_prop (t_name t) st cls (fst y) (snd y))) r) by (clear - F; induction F as [|x y l r (F1 & F2 & F3 & F4 & F5) F6 IHF]; constructor; auto).
      split; [split; auto; clear - F; induction F as [|x y l r (F1 & F2 & F3 & F4 & F5) F6 IHF]; constructor; auto|].
      assert (LR : zlen r = zlen props) by (eapply Forall2_zlen; eauto).
      split; [split; auto; split|split; [lia|]]; eapply Forall_impl; try exact FR; cbv beta; tauto. }
  intros [pid p] I. specialize (IH _ I). specialize (HP _ I). specialize (HM _ I). specialize (HT _ I). specialize (HS _ I). cbn [fst snd] in *. destruct HS as (q & Eq & Hq & HS). clear HI HN HL I. rewrite (proj1 (moved_pid _ _ _ _) Eq). cbn [bind].
  enough (G : exists p', copy_prop_to t (copy_to t) cls q p = Ok p' /\ like_prop t cls q (like t) p p' /\ prop_made (t_name t) (made (t_name t)) cls q (settle_prop (t_name t) st cls q p') /\ prop_fits fits (settle_prop (t_name t) st cls q p')).
  { destruct G as (p' & -> & G). cbn [bind]. eexists. split; [reflexivity|]. cbn [fst snd]. tauto. }
  destruct (mangled_named (t_name t) cls q 32 NB ltac:(lia)) as (e32 & E32 & N32). destruct (mangled_named (t_name t) cls q 22 NB ltac:(lia)) as (e22 & E22 & N22).
  destruct HM as (HF & HM). unfold prop_made.
  destruct p as [f da|da nm c|da nm o|da nm next last items|da nm next last kp ks items|f da i k s rr|f da nm i k s rr]; cbn [copy_prop_to prop_form prop_fits below prop_suits] in *; cbv zeta.
  - destruct HT as (b & -> & L). cbn [copy_data bind]. eexists. split; [reflexivity|]. cbn [like_prop prop_form prop_fits settle_prop]. split; auto. split; auto. eauto.
  - destruct HF as (n & e & b & -> & _ & EN & -> & ->). cbn [copy_data bind copy_stream]. unfold stream_data. rewrite E32. cbn [bind].
    pose proof (gen_entry (t_name t cls) (GRef q)) as GE. cbn [gen_name gen_ok gpid] in GE. rewrite GE by (auto; lia). cbn [bind]. eexists. split; [reflexivity|]. cbn [like_prop prop_form prop_fits settle_prop]. split; auto. split; auto. split; auto.
    destruct N32 as (_ & _ & NF & _). exists (mangle_name (t_name t cls q) q 32), e32, b. auto 6.
  - destruct HF as (n & (-> & _ & _ & e & _ & ->) & HO). destruct o as [o|]; [|destruct HO]. cbn [copy_data bind]. destruct (IH HO HT HS) as (c & -> & L & M & F). cbn [bind]. rewrite E32. cbn [bind]. eexists. split; [reflexivity|].
    cbn [like_prop prop_form prop_fits settle_prop]. split; auto. split; auto. split; auto. eauto.
  - destruct HF as (n & (-> & _ & _ & e & EE & ->) & HO). cbn [copy_data bind]. destruct HT as (_ & _ & HL & _ & HT). destruct HS as (HE & HS). rewrite every_Forall in *. rewrite Forall_forall in *.
    destruct (all_of_total _ _ (fun x : Z * obj => copy_to t (snd x)) (fun x c => like t (snd x) c /\ made (t_name t) (st c) /\ fits (st c)) items) as (cs & EC & FC). { intros x J. apply IH; auto. }
    rewrite EC. cbn [bind]. assert (LC : zlen cs = zlen items) by (eapply Forall2_zlen; eauto). pose proof (zlen_nonneg _ cs) as L0.
    destruct cs as [|c1 cs1] eqn:CS.
    { inversion FC; subst. eexists. split; [reflexivity|]. destruct HE as [HE|HE]; [congruence|]. injection HE as ->. cbn [like_prop prop_form prop_fits settle_prop map]. split; [split; [exact I|constructor]|]. destruct N22 as (_ & N22 & N22' & _).
      split; [split; [|split; [auto|split; constructor]]|]. { eexists. split; [split; [reflexivity|]; split; auto; split; auto; exists e; split; auto|exact I]. }
      split; [lia|]. split; [lia|]. split; [auto|]. split; [constructor|exact I]. }
    rewrite <- CS in *. clear CS c1 cs1. rewrite E22. cbn [bind]. eexists. split; [reflexivity|].
    destruct (numbered _ cs) as (NF & NS & NL & NR). set (items' := combine (zseq 0 (zlen cs)) cs) in *. cbn [like_prop prop_form prop_fits settle_prop]. rewrite every2_Forall2.
    assert (FI : Forall2 (fun x y => like t (snd x) (snd y) /\ made (t_name t) (st (snd y)) /\ fits (st (snd y))) items items') by (apply (Forall2_map_r _ _ _ (fun x c => like t (snd x) c /\ made (t_name t) (st c) /\ fits (st c))); rewrite NS; auto).
    assert (FM : Forall (fun y => made (t_name t) (st (snd y)) /\ fits (st (snd y))) items') by (clear - FI; induction FI as [|x y l r (_ & F1) F2 IHF]; constructor; auto).
    split; [split; [clear - FI; induction FI as [|x y l r (F1 & _) F2 IHF]; constructor; auto|rewrite Forall_forall; intros x J; apply NR in J; lia]|]. rewrite Forall_forall in FM. split.
    + split. { exists (mangle_name (t_name t cls q) q 22). split; auto. apply every_Forall. rewrite Forall_map, Forall_forall. intros x J. apply FM. auto. }
      rewrite map_map, Forall_map. cbn [fst snd]. split; auto. split; [change (NoDup (map fst items')); rewrite NF; apply NoDup_zseq|]. rewrite Forall_forall. intros x J. apply NR in J. lia.
    + rewrite zlen_map. split; [lia|]. split; [lia|]. split; [lia|]. split; [|apply every_Forall]; rewrite Forall_map, Forall_forall; cbn [fst snd]; intros x J; [apply NR in J; lia|apply FM; auto].
  - destruct HF as (n & size & (-> & _ & _ & e & _ & ->) & _ & EK & HK & HZ & HU & HO). cbn [copy_data bind]. destruct HT as (_ & _ & HL & _ & _ & HT). destruct HS as (HE & HS & EK' & HK'). rewrite EK in EK'. injection EK' as EK'. rewrite every_Forall in *. rewrite Forall_forall in *.
    destruct (all_of_total _ _ (fun x : list Z * (Z * obj) => do c <- copy_to t (snd (snd x)) ;; Ok (fst x, c)) (fun x c => fst c = fst x /\ like t (snd (snd x)) (snd c) /\ made (t_name t) (st (snd c)) /\ fits (st (snd c))) items) as (cs & EC & FC).
    { intros x J. destruct (IH _ J (HO _ J) (HT _ J) (HS _ J)) as (c & -> & G). cbn [bind]. eexists. split; [reflexivity|]. cbn. auto. }
    rewrite EC. cbn [bind]. assert (LC : zlen cs = zlen items) by (eapply Forall2_zlen; eauto). pose proof (zlen_nonneg _ cs) as L0.
    destruct cs as [|c1 cs1] eqn:CS. { inversion FC; subst. congruence. } rewrite <- CS in *. clear CS c1 cs1. rewrite E22. cbn [bind]. eexists. split; [reflexivity|].
    destruct (numbered _ cs) as (NF & NS & NL & NR). set (num := combine (zseq 0 (zlen cs)) cs) in *. set (items' := map _ num). cbn [like_prop prop_form prop_fits settle_prop]. rewrite every2_Forall2.
    assert (FI : Forall2 (fun x y => fst y = fst x /\ like t (snd (snd x)) (snd (snd y)) /\ made (t_name t) (st (snd (snd y))) /\ fits (st (snd (snd y)))) items items').
    { apply (Forall2_map_r _ _ _ (fun x c => fst c = fst x /\ like t (snd (snd x)) (snd c) /\ made (t_name t) (st (snd c)) /\ fits (st (snd c))) (fun y => (fst y, snd (snd y)))).
      unfold items'. rewrite map_map. cbn [fst snd]. replace (map (fun x : Z * (list Z * obj) => (fst (snd x), snd (snd x))) num) with (map snd num) by (apply map_ext; intros [? []]; auto). rewrite NS. auto. }
    assert (FM : Forall (fun y => zlen (fst y) = size /\ made (t_name t) (st (snd (snd y))) /\ fits (st (snd (snd y)))) items') by (clear - FI HZ; induction FI as [|x y l r (F0 & _ & F1) F2 IHF]; constructor; [rewrite F0; split; auto; apply HZ; left; auto|apply IHF; intros; apply HZ; right; auto]).
    assert (KE : map fst items' = map fst items) by (clear - FI; induction FI as [|x y l r (F0 & _) F2 IHF]; cbn [map]; congruence).
    assert (LE : map (fun x => fst (snd x)) items' = zseq 0 (zlen cs)) by (unfold items'; rewrite map_map; cbn [fst snd]; auto).
    assert (LR : forall x, In x items' -> 0 <= fst (snd x) < zlen cs) by (intros x J; unfold items' in J; apply in_map_iff in J; destruct J as (y & <- & J); cbn; auto).
    split; [split; [clear - FI; induction FI as [|x y l r (F1 & F2 & _) F3 IHF]; constructor; auto|split; auto; rewrite Forall_forall; intros x J; apply LR in J; lia]|]. rewrite Forall_forall in FM. split.
    + split. { exists (mangle_name (t_name t cls q) q 22), size. split; auto. split; [discriminate|]. split; [congruence|]. split; auto. split; [rewrite Forall_map, Forall_forall; cbn [fst snd]; intros x J; apply FM; auto|]. split; [rewrite map_map; change (NoDup (map fst items')); rewrite KE; auto|]. apply every_Forall. rewrite Forall_map, Forall_forall. cbn [fst snd]. intros x J. apply FM. auto. }
      rewrite map_map, Forall_map. cbn [fst snd]. split; auto. split; [rewrite LE; apply NoDup_zseq|]. rewrite Forall_forall. intros x J. apply LR in J. lia.
    + assert (LI : zlen items' = zlen cs) by (unfold items'; rewrite zlen_map; auto). rewrite zlen_map, Forall_map. cbn [fst snd]. split; [lia|]. split; [lia|]. split; [lia|]. split; [rewrite Forall_forall; intros x J; apply LR in J; lia|]. split; [eauto|]. apply every_Forall. rewrite Forall_map, Forall_forall. cbn [fst snd]. intros x J. apply FM. auto.
  - destruct HF as (Hf & i' & k' & r' & -> & -> & -> & -> & e & EE & ->). cbn [copy_data bind]. destruct HS as (EK & H1 & H2). injection EK as EK.
    assert (SZ : (zlen r' =? 16) || (zlen r' =? 32) = true) by (unfold weak_encode in EE; destruct ((zlen r' =? 16) || (zlen r' =? 32)); [auto|discriminate]).
    assert (WE : exists e', weak_encode (t_index t cls q) (fst (t_key t cls q)) r' = Ok e').
    { unfold weak_encode. rewrite SZ. rewrite !pack_total by (change (256 ^ Z.of_nat 2) with 65536; change (256 ^ Z.of_nat 1) with 256; lia). cbn [bind]. eauto. }
    destruct WE as (e' & WE). rewrite WE. cbn [bind]. eexists. split; [reflexivity|]. cbn [like_prop prop_form prop_fits settle_prop]. split; auto. split; auto. split; auto. split; auto. rewrite <- EK. exists (t_index t cls q), (fst (t_key t cls q)), r'. split; auto. split; auto. split; auto. split; auto. eauto.
  - destruct HF as (Hf & n & size & (-> & _ & _ & e & _ & ->) & _ & _ & EK & HK & HZ). cbn [copy_data bind]. destruct HS as (HE & HH & EK' & H1 & H2). rewrite EK in EK'. injection EK' as EK'. destruct HT as (_ & HT). rewrite HH.
    destruct rr as [|r1 rr1] eqn:RR; [congruence|]. rewrite <- RR in *. clear RR r1 rr1. rewrite E22. cbn [bind]. eexists. split; [reflexivity|]. cbn [like_prop prop_form prop_fits settle_prop]. split; auto. split.
    + split; auto. split; auto. exists (mangle_name (t_name t cls q) q 22), size. split; auto. split; [discriminate|]. split; [discriminate|]. split; [congruence|]. auto.
    + split; auto. exists (t_index t cls q), (fst (t_key t cls q)). auto.
Qed.

(** ** A tree with every kind of property *)

Definition ex_names (cls pid : Z) : list Z := codes "Items".
Definition ex_text (pid size : Z) : list Z := mangle_name (codes "Items") pid size.
Definition ex_data (pid size : Z) : list Z := match encode_utf16le (ex_text pid size) with Ok e => e | Err _ => [] end.
Definition ex_key : list Z := map (fun k => 3 * k) (zseq 1 16).
Definition ex_weak (i k : Z) : list Z := match weak_encode i k ex_key with Ok e => e | Err _ => [] end.
Definition ex_leaf (v : Z) : obj := Obj 2 [(1, PData 130 (Some [v]))].
Definition ex_vec (pid next : Z) (items : list (Z * obj)) : prop := PVec (Some (ex_data pid 22)) (Some (ex_text pid 22)) next 4294967295 items.
Definition ex_tree : obj := Obj 1
  [(1, PData 130 (Some [1; 2; 3]));
   (2, PStream (Some (85 :: ex_data 2 32)) (Some (ex_text 2 32)) (Some [9; 8]));
   (3, PRef (Some (ex_data 3 32)) (Some (ex_text 3 32)) (Some (Obj 1 [(4, ex_vec 4 1 [(0, ex_leaf 5)])])));
   (4, ex_vec 4 2 [(0, ex_leaf 6); (1, ex_leaf 7)]);
   (5, PSet (Some (ex_data 5 22)) (Some (ex_text 5 22)) 1 4294967295 (Some 7) (Some 16) [(ex_key, (0, ex_leaf 8))]);
   (6, PWeak 2 (Some (ex_weak 1 7)) (Some 1) (Some 7) (Some 16) (Some ex_key));
   (7, PWeaks 18 (Some (ex_data 7 22)) (Some (ex_text 7 22)) (Some 1) (Some 7) (Some 16) [ex_key])].

Lemma ex_names_bmp : forall cls pid, Forall bmp (ex_names cls pid).
Proof. intros. unfold ex_names. apply Forall_forall. cbn. unfold bmp. intros c X. lia. Qed.
Lemma ex_named : forall pid size, 0 <= pid -> named (Some (ex_data pid size)) (Some (ex_text pid size)) (ex_text pid size).
Proof.
  intros pid size H. destruct (mangled_named ex_names 0 pid size ex_names_bmp H) as (e & E & N). unfold ex_data, ex_text. change (codes "Items") with (ex_names 0 pid). rewrite E. auto.
Qed.
Ltac tree :=
  repeat match goal with
  | |- _ /\ _ => split
  | |- NoDup [] => constructor
  | |- NoDup (_ :: _) => constructor; [cbn; intros X; decompose [or] X; try discriminate; try contradiction; lia|]
  | |- Forall _ [] => constructor
  | |- Forall _ (_ :: _) => constructor
  | |- True => exact I
  | |- prop_made _ _ _ _ _ => unfold prop_made; cbn [prop_form made every fst snd map]
  | |- named _ _ _ => apply ex_named; lia
  | |- nul_free _ => apply ex_named; lia
  | |- exists _, _ => eexists
  | |- @eq _ ?a ?b => first [reflexivity | vm_compute; reflexivity]
  | |- _ \/ _ => first [left; reflexivity | right; reflexivity]
  | |- _ <> None => discriminate
  | |- In _ _ => cbn; tauto
  | |- (_ <= _)%Z => cbn; lia
  | |- (_ < _)%Z => vm_compute; reflexivity
  end.
Lemma ex_made : made ex_names ex_tree /\ fits ex_tree /\ dense ex_tree.
Proof.
  split; [|split]; unfold ex_tree, ex_leaf, ex_vec; cbn [made fits dense every fst snd prop_made prop_form prop_fits map]; tree.
Qed.

Example C63_case : exists d, write_obj ex_names empty_dir ex_tree = Ok d /\ read_obj ex_names (depth ex_tree) d = Ok ex_tree.
Proof.
  destruct ex_made as (M & F & _). destruct (C63_saves ex_names ex_names_bmp ex_tree 0 M F) as (d & E). exists d. split; auto. eapply C63_roundtrip; eauto. eapply C63_library; eauto.
Qed.
Example C64_same_case : exists c, copy_obj ex_names ex_tree = Ok c /\ erase c = erase ex_tree.
Proof. destruct ex_made as (M & F & D). destruct (C64_same ex_names ex_names_bmp ex_tree M F D) as (c & E & S & _). eauto. Qed.

(** Another file where dynamic pids are one higher. *)
Definition ex_to : target := Target ex_names (fun _ pid => Some (pid + 1)) (fun _ _ => 3) (fun _ _ => (7, 16)) (fun _ _ _ => true).
Example C64_other_case : exists c, copy_to ex_to ex_tree = Ok c /\ like ex_to ex_tree c.
Proof.
  destruct ex_made as (M & F & D). destruct (C64_other ex_names ex_to ex_names_bmp ex_tree M F) as (c & E & S & _); [|eauto].
  unfold ex_tree, ex_leaf, ex_vec. cbn [suits every fst snd]. split.
  - repeat match goal with
    | |- _ /\ _ => split
    | |- True => exact I
    | |- exists q, moved _ _ ?p _ /\ _ => exists p; split; [reflexivity|]; split; [lia|]; cbn [prop_suits suits every fst snd]
    | |- _ <> [] \/ _ => left
    | |- _ <> [] => discriminate
    | |- @eq _ _ _ => vm_compute; reflexivity
    | |- (_ <= _)%Z => cbn; lia
    | |- (_ < _)%Z => cbn; lia
    | |- forall x y q, _ => intros ? ? ? [<-|[]] [<-|[]] _ _; reflexivity
    end.
  - intros x y q Hx Hy. unfold moved. cbn [In] in Hx, Hy. decompose [or] Hx; decompose [or] Hy; try contradiction; subst; cbn; congruence.
Qed.

Example C64_empty_vector_case : exists c d, copy_to ex_to (Obj 1 [(4, ex_vec 4 0 [])]) = Ok c /\ write_obj ex_names empty_dir c = Ok d /\
  read_obj ex_names 1 d = Ok (Obj 1 [(4, ex_vec 4 0 [])]).
Proof. do 2 eexists. split; [vm_compute; reflexivity|]. split; [vm_compute; reflexivity|]. vm_compute. reflexivity. Qed.

(** ** Where copies go wrong *)

(** The copy of a vector from which an element was removed: an IndexError, or another element's name
    (properties.py:438 takes references[references[i]]). *)
Theorem C64_popped_refuted : exists o, made ex_names o /\ fits o /\ (exists d, write_obj ex_names empty_dir o = Ok d) /\ copy_obj ex_names o = Err IndexError.
Proof.
  exists (Obj 1 [(4, ex_vec 4 2 [(1, ex_leaf 7)])]).
  assert (M : made ex_names (Obj 1 [(4, ex_vec 4 2 [(1, ex_leaf 7)])]) /\ fits (Obj 1 [(4, ex_vec 4 2 [(1, ex_leaf 7)])])).
  { split; unfold ex_leaf, ex_vec; cbn [made fits dense every fst snd prop_made prop_form prop_fits map]; tree. }
  destruct M as (M & F). split; auto. split; auto. split; [apply C63_saves; auto; apply ex_names_bmp|]. vm_compute. reflexivity.
Qed.

(** A vector under a name the library would not give it, as in files of other programs: it is read and saved,
    but its copy is saved so that it cannot be read. *)
Definition ex_foreign : obj := Obj 1 [(4, PVec (Some (ex_data 9 22)) (Some (ex_text 9 22)) 1 4294967295 [(0, ex_leaf 7)])].
Theorem C64_foreign_refuted : exists d c d', write_obj ex_names empty_dir ex_foreign = Ok d /\ read_obj ex_names 2 d = Ok ex_foreign /\
  copy_obj ex_names ex_foreign = Ok c /\ write_obj ex_names empty_dir c = Ok d' /\ forall fuel, read_obj ex_names (S fuel) d' = Err PropertyError.
Proof.
  do 3 eexists. split; [vm_compute; reflexivity|]. split; [vm_compute; reflexivity|]. split; [vm_compute; reflexivity|]. split; [vm_compute; reflexivity|]. intros [|fuel]; vm_compute; reflexivity.
Qed.

(** The copy of a single weak reference takes the pid of the property for the pid of the key of the target
    (properties.py:1012): what it holds is not what its own bytes say. *)
Theorem C64_weak_key_refuted : exists o c, made ex_names o /\ fits o /\ copy_obj ex_names o = Ok c /\ ~ well_formed c /\ c <> o.
Proof.
  set (o := Obj 1 [(6, PWeak 2 (Some (ex_weak 1 7)) (Some 1) (Some 7) (Some 16) (Some ex_key))]). set (c := Obj 1 [(6, PWeak 2 (Some (ex_weak 1 7)) (Some 1) (Some 6) (Some 16) (Some ex_key))]).
  exists o, c. split; [|split; [|split; [|split]]].
  - unfold o. cbn [made fits dense every fst snd prop_made prop_form prop_fits map]; tree.
  - unfold o. cbn [made fits dense every fst snd prop_made prop_form prop_fits map]; tree.
  - vm_compute. reflexivity.
  - unfold c. cbn [well_formed every fst snd]. intros H. assert (X : prop_form well_formed (PWeak 2 (Some (ex_weak 1 7)) (Some 1) (Some 6) (Some 16) (Some ex_key))) by tauto.
    destruct X as (_ & i & k & r & Ei & Ek & Er & _ & e & E & X). injection Ei as <-. injection Ek as <-. injection Er as <-. revert E X. vm_compute. intros E. injection E as <-. discriminate.
  - discriminate.
Qed.

(** An empty set, and an empty array of weak references, copied to another file: the copy has no index name
    and the other file cannot be saved. *)
Theorem C64_empty_set_refuted : exists o c, made ex_names o /\ fits o /\ (exists d, write_obj ex_names empty_dir o = Ok d) /\
  copy_to ex_to o = Ok c /\ write_obj ex_names empty_dir c = Err TypeError.
Proof.
  set (o := Obj 1 [(5, PSet (Some (ex_data 5 22)) (Some (ex_text 5 22)) 0 4294967295 (Some 7) (Some 16) [])]). exists o. eexists.
  assert (M : made ex_names o /\ fits o) by (split; unfold o; cbn [made fits dense every fst snd prop_made prop_form prop_fits map]; tree).
  destruct M as (M & F). split; auto. split; auto. split; [apply C63_saves; auto; apply ex_names_bmp|]. split; [vm_compute; reflexivity|]. vm_compute. reflexivity.
Qed.
Theorem C64_empty_weak_refuted : exists o c, made ex_names o /\ fits o /\ (exists d, write_obj ex_names empty_dir o = Ok d) /\
  copy_to ex_to o = Ok c /\ write_obj ex_names empty_dir c = Err TypeError.
Proof.
  set (o := Obj 1 [(7, PWeaks 18 (Some (ex_data 7 22)) (Some (ex_text 7 22)) (Some 1) (Some 7) (Some 16) [])]). exists o. eexists.
  assert (M : made ex_names o /\ fits o) by (split; unfold o; cbn [made fits dense every fst snd prop_made prop_form prop_fits map]; tree).
  destruct M as (M & F). split; auto. split; auto. split; [apply C63_saves; auto; apply ex_names_bmp|]. split; [vm_compute; reflexivity|]. vm_compute. reflexivity.
Qed.

(** An empty vector under a dynamic pid that differs in the other file: the copy is saved, and the file can
    then not be read. *)
Theorem C64_empty_vector_refuted : exists o c d', made ex_names o /\ fits o /\ (exists d, write_obj ex_names empty_dir o = Ok d) /\
  copy_to ex_to o = Ok c /\ write_obj ex_names empty_dir c = Ok d' /\ forall fuel, read_obj ex_names (S fuel) d' = Err PropertyError.
Proof.
  set (o := Obj 1 [(32769, ex_vec 32769 0 [])]). exists o. do 2 eexists.
  assert (M : made ex_names o /\ fits o) by (split; unfold o, ex_vec; cbn [made fits dense every fst snd prop_made prop_form prop_fits map]; tree).
  destruct M as (M & F). split; auto. split; auto. split; [apply C63_saves; auto; apply ex_names_bmp|]. split; [vm_compute; reflexivity|]. split; [vm_compute; reflexivity|]. intros [|fuel]; vm_compute; reflexivity.
Qed.

(** The targets of an array of weak references are not copied with it, as that of a single one is. *)
Theorem C64_missing_target_refuted : exists t o, made ex_names o /\ fits o /\ t_name t = ex_names /\ copy_to t o = Err AssertionError.
Proof.
  exists (Target ex_names (fun _ pid => Some pid) (fun _ _ => 3) (fun _ _ => (7, 16)) (fun _ _ _ => false)).
  set (o := Obj 1 [(7, PWeaks 18 (Some (ex_data 7 22)) (Some (ex_text 7 22)) (Some 1) (Some 7) (Some 16) [ex_key])]). exists o.
  split; [unfold o; cbn [made fits dense every fst snd prop_made prop_form prop_fits map]; tree|]. split; [unfold o; cbn [made fits dense every fst snd prop_made prop_form prop_fits map]; tree|]. split; vm_compute; reflexivity.
Qed.

Print Assumptions C63_library.
Print Assumptions C63_saves.
Print Assumptions C64_same.
Print Assumptions C64_other.
Print Assumptions C64_popped_refuted.
Print Assumptions C64_foreign_refuted.
Print Assumptions C64_weak_key_refuted.
Print Assumptions C64_empty_set_refuted.
Print Assumptions C64_empty_weak_refuted.
Print Assumptions C64_empty_vector_refuted.
Print Assumptions C64_missing_target_refuted.
