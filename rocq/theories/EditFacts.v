(** Facts about editing an open file, for C65. *)
From Verif Require Import Base BaseFacts Codec CodecFacts Text TextFacts TypesModel TypesFacts ObjModel PropsObj TreeModel PropsTree PropsTreeMore PropsTreeCopy EditModel.
From Coq Require Import ZArith List Bool Lia String Arith.
Import ListNotations.
Open Scope Z_scope.

(** ** Specification: storage and memory agree *)

(** the streams of a property *)
Definition streams (p : prop) : list (list Z * list Z) :=
  match p with PStream _ (Some n) (Some b) => [(n, b)] | _ => [] end.

(** the data in the "properties" stream that is read as this property: the name of a vector may be missing there *)
Definition stored (names : Z -> Z -> list Z) (cls pid : Z) (p : prop) (e : list Z) : Prop :=
  match p with
  | PVec data name _ _ _ => let n := vec_name names cls pid (Some (decode_utf16le e)) in
      name = Some n /\ exists e', match decode_utf16le e with [] => encode_utf16le n | _ => Ok e end = Ok e' /\ data = Some e'
  | p => data_of p = Some e
  end.
(** its index stream is read as what it has *)
Definition listed (p : prop) (d : dir) : Prop :=
  match p with
  | PVec _ (Some n) next last items => exists b, dget d (index_stream n) = Some (File b) /\ vec_read b = Ok (next, last, map fst items)
  | PSet _ (Some n) next last (Some kpid) (Some ksize) items => exists b, dget d (index_stream n) = Some (File b) /\
      set_read b = Ok (SetIndex next last kpid ksize (map (fun x => (fst x, fst (snd x))) items))
  | PWeaks _ _ (Some n) (Some i) (Some k) (Some s) refs => exists b, dget d (index_stream n) = Some (File b) /\ weaks_read b = Ok (i, k, s, refs)
  | _ => True
  end.
(** the "properties" and index streams of an object are read as its properties *)
Definition saved (names : Z -> Z -> list Z) (cls : Z) (props : list (Z * prop)) (d : dir) : Prop :=
  match dget d (codes "properties") with
  | Some (File b) => exists v es, read_properties b = Ok (v, es) /\
      Forall2 (fun e x => fst e = fst x /\ fst (snd e) = prop_format (snd x) /\ stored names cls (fst x) (snd x) (snd (snd e))) es props
  | Some (Sub _) => False
  | None => props = []
  end /\
  Forall (fun x => listed (snd x) d) props.

(** Every object below is in its storage, with its class and its streams, and those not marked in [M] are
    saved. *)
Inductive sync (names : Z -> Z -> list Z) : (path -> Prop) -> dir -> obj -> Prop :=
| Sync : forall (M : path -> Prop) d cls props,
    class_of d = cls -> (~ M [] -> saved names cls props d) ->
    (forall x n b, In x props -> In (n, b) (streams (snd x)) -> dget d n = Some (File b)) ->
    (forall x n c, In x props -> In (n, c) (kids (snd x)) -> exists s, dget d n = Some (Sub s) /\ sync names (fun w => M (n :: w)) s c) ->
    sync names M d (Obj cls props).

(** Objects as the library's setters leave them, with keys that are not used again: [made], and the
    keys in use are below the next one. *)
Definition prop_ready (names : Z -> Z -> list Z) (rec : obj -> Prop) (cls pid : Z) (p : prop) : Prop :=
  prop_made names rec cls pid p /\
  match p with
  | PVec _ _ next _ items => 0 <= next /\ Forall (fun x => fst x < next) items
  | PSet _ _ next _ _ _ items => 0 <= next /\ Forall (fun x => fst (snd x) < next) items
  | _ => True
  end.
Fixpoint ready (names : Z -> Z -> list Z) (o : obj) : Prop :=
  match o with Obj cls props =>
    NoDup (map fst props) /\ Forall (fun x => 0 <= fst x < 65536) props /\
    every (fun x => prop_ready names (ready names) cls (fst x) (snd x)) props
  end.

Lemma prop_made_mono : forall names (P Q : obj -> Prop) cls pid p, below (fun o => P o -> Q o) p -> prop_made names P cls pid p -> prop_made names Q cls pid p.
Proof. intros names P Q cls pid p B (F & H). split; auto. eapply prop_form_mono; eauto. Qed.
Lemma ready_made : forall names o, ready names o -> made names o.
Proof.
  intros names o. induction o as [cls props IH] using obj_induct. cbn [ready made]. intros (HN & HP & HF). split; auto. split; auto.
  rewrite every_Forall in *. rewrite Forall_forall in *. intros x I. destruct (HF x I) as (F & _). eapply prop_made_mono; [|exact F]. apply (IH x I).
Qed.

(** ** Places *)
Lemma path_eqb_spec : forall a b, path_eqb a b = true <-> a = b.
Proof.
  induction a as [|x a IH]; intros [|y b]; cbn; split; try congruence; auto.
  - intros H. apply andb_true_iff in H. destruct H as [H1 H2]. apply zlist_eqb_spec in H1. apply IH in H2. congruence.
  - intros [= -> ->]. rewrite zlist_eqb_refl. apply IH. auto.
Qed.
Lemma below_path_spec : forall v w, below_path v w = true <-> exists u, w = v ++ u.
Proof.
  induction v as [|a v IH]; intros w; cbn. { split; eauto. }
  destruct w as [|b w]. { split; [discriminate|intros (u & [=])]. } rewrite andb_true_iff, IH, zlist_eqb_spec. split.
  - intros (-> & u & ->). eauto.
  - intros (u & [= -> ->]). eauto.
Qed.
Lemma paths_kids : forall cls props, paths (Obj cls props) = [] :: flat_map (fun x => flat_map (fun k => map (cons (fst k)) (paths (snd k))) (kids (snd x))) props.
Proof.
  intros cls props. cbn [paths]. f_equal. induction props as [|[pid p] r IH]; auto. cbn [flat_map]. rewrite <- IH. f_equal.
  destruct p as [|da [n|] c|da [n|] [o|]|da [n|] ? ? items|da [n|] ? ? ? ? items| |]; cbn [kids snd flat_map]; auto.
  - cbn [fst snd]. rewrite app_nil_r. auto.
  - induction items as [|y t IHt]; cbn [map flat_map fst snd]; auto. rewrite <- IHt. auto.
  - induction items as [|y t IHt]; cbn [map flat_map fst snd]; auto. rewrite <- IHt. auto.
Qed.
Lemma paths_nil : forall o, In [] (paths o).
Proof. intros [cls props]. left. auto. Qed.
Lemma paths_cons : forall cls props n w, In (n :: w) (paths (Obj cls props)) <-> exists x c, In x props /\ In (n, c) (kids (snd x)) /\ In w (paths c).
Proof.
  intros. rewrite paths_kids. split.
  - intros [[=]|I]. apply in_flat_map in I. destruct I as (x & I & J). apply in_flat_map in J. destruct J as ([m c] & J & K). cbn [fst snd] in K. apply in_map_iff in K. destruct K as (u & [= -> ->] & K). eauto.
  - intros (x & c & I & J & K). right. apply in_flat_map. exists x. split; auto. apply in_flat_map. exists (n, c). split; auto. apply in_map_iff. exists w. auto.
Qed.

(** ** More marks *)
Lemma below_kids : forall (P : obj -> Prop) p n c, below P p -> In (n, c) (kids p) -> P c.
Proof.
  intros P p n c B I. destruct p as [|da [m|] co|da [m|] [o|]|da [m|] ? ? items|da [m|] ? ? ? ? items| |]; cbn [kids below] in *; try (destruct I; fail).
  - destruct I as [[= <- <-]|[]]. auto.
  - rewrite Forall_forall in B. apply in_map_iff in I. destruct I as (x & [= <- <-] & I). auto.
  - rewrite Forall_forall in B. apply in_map_iff in I. destruct I as (x & [= <- <-] & I). auto.
Qed.
Lemma sync_weaken : forall names o (M M' : path -> Prop) d, sync names M d o -> (forall w, In w (paths o) -> M w -> M' w) -> sync names M' d o.
Proof.
  intros names o. induction o as [cls props IH] using obj_induct. rewrite Forall_forall in IH. intros M M' d H HM. inversion H as [M0 d0 cls0 props0 HC HS HT HK]; subst. constructor; auto.
  - intros N. apply HS. intros X. apply N. apply HM; auto. apply paths_nil.
  - intros x n c I J. destruct (HK x n c I J) as (s & G & S). exists s. split; auto. pose proof (IH x I) as B. apply (below_kids _ _ _ _ B J (fun w => M (n :: w))); auto.
    intros w K. apply HM. apply paths_cons. eauto.
Qed.

(** ** Names *)
Lemma kids_children : forall p n c, In (n, c) (kids p) -> In n (children p).
Proof.
  intros p n c I. destruct p as [|da [m|] co|da [m|] [o|]|da [m|] ? ? items|da [m|] ? ? ? ? items| |]; cbn [kids children] in *; try (destruct I; fail).
  - destruct I as [[= <- <-]|[]]. left. auto.
  - apply in_map_iff in I. destruct I as (x & [= <- <-] & I). apply (in_map (fun x => element_storage m (fst x))). auto.
  - apply in_map_iff in I. destruct I as (x & [= <- <-] & I). apply (in_map (fun x => element_storage m (fst (snd x)))). auto.
Qed.
Lemma streams_children : forall p n b, In (n, b) (streams p) -> In n (children p).
Proof. intros p n b I. destruct p as [|da [m|] [co|]|da [m|] [o|]|da [m|] ? ? items|da [m|] ? ? ? ? items| |]; cbn [streams children] in *; try (destruct I; fail). destruct I as [[= <- <-]|[]]. left. auto. Qed.
Lemma no_stream_kid : forall p n b m c, In (n, b) (streams p) -> In (m, c) (kids p) -> False.
Proof. intros p n b m c I J. destruct p as [|da [k|] [co|]|da [k|] [o|]|da [k|] ? ? items|da [k|] ? ? ? ? items| |]; cbn [streams kids] in *; tauto. Qed.

Definition distinct (props : list (Z * prop)) : Prop :=
  NoDup (map fst props) /\
  NoDup (codes "properties" :: flat_map (fun x => children (snd x)) props ++ flat_map (fun x => indexes (snd x)) props).
Lemma ready_distinct : forall names cls props, ready names (Obj cls props) -> distinct props.
Proof. intros names cls props H. apply ready_made, C63_library in H. cbn [well_formed] in H. unfold distinct. tauto. Qed.

Lemma distinct_child : forall props x y n, distinct props -> In x props -> In y props -> In n (children (snd x)) -> In n (children (snd y)) -> x = y.
Proof.
  intros props x y n (_ & H) I J Hx Hy. inversion H as [|? ? _ N]; subst. apply NoDup_app_iff in N. destruct N as (N & _). clear H.
  induction props as [|z r IH]; [destruct I|]. cbn [flat_map] in N. apply NoDup_app_iff in N. destruct N as (N1 & N2 & N3).
  destruct I as [->|I], J as [->|J]; auto; exfalso.
  - apply (N3 n); auto. apply in_flat_map. eauto.
  - apply (N3 n); auto. apply in_flat_map. eauto.
Qed.
Lemma distinct_index : forall props x y n, distinct props -> In x props -> In y props -> In n (children (snd x)) -> In n (indexes (snd y)) -> False.
Proof.
  intros props x y n (_ & H) I J Hx Hy. inversion H as [|? ? _ N]; subst. apply NoDup_app_iff in N. destruct N as (_ & _ & N). apply (N n); apply in_flat_map; eauto.
Qed.
Lemma distinct_props : forall props x n, distinct props -> In x props -> In n (children (snd x)) \/ In n (indexes (snd x)) -> n <> codes "properties".
Proof.
  intros props x n (_ & H) I HX E. inversion H as [|? ? N _]; subst. apply N. apply in_or_app. destruct HX; [left|right]; apply in_flat_map; eauto.
Qed.
Lemma distinct_kids : forall props x, distinct props -> In x props -> NoDup (children (snd x)).
Proof.
  intros props x (_ & H) I. inversion H as [|? ? _ N]; subst. apply NoDup_app_iff in N. destruct N as (N & _). clear H. apply in_split in I. destruct I as (a & b & ->). rewrite flat_map_app in N. apply NoDup_app_iff in N. destruct N as (_ & N & _). cbn [flat_map] in N. apply NoDup_app_iff in N. tauto.
Qed.

Lemma kids_nodup : forall p n a b, NoDup (children p) -> In (n, a) (kids p) -> In (n, b) (kids p) -> a = b.
Proof.
  intros p n a b N I J.
  assert (E : map fst (kids p) = children p \/ kids p = []).
  { destruct p as [|da [m|] co|da [m|] [o|]|da [m|] ? ? items|da [m|] ? ? ? ? items| |]; cbn [kids children map]; auto; left; rewrite map_map; auto. }
  destruct E as [E|E]; [|rewrite E in I; destruct I]. rewrite <- E in N. pose proof (dict_get_in zlist_eqb (fun a b => zlist_eqb_spec a b) _ _ _ N I) as A. pose proof (dict_get_in zlist_eqb (fun a b => zlist_eqb_spec a b) _ _ _ N J). congruence.
Qed.
Lemma kid_in : forall props n c, kid props n = Some c -> exists x, In x props /\ In (n, c) (kids (snd x)).
Proof.
  intros props n c H. unfold kid in H.
  assert (G : In (n, c) (flat_map (fun x => kids (snd x)) props)).
  { revert H. generalize (flat_map (fun x : Z * prop => kids (snd x)) props). induction l as [|[k v] l IH]; cbn; [discriminate|]. destruct (zlist_eqb k n) eqn:E; auto. intros [= ->]. apply zlist_eqb_spec in E. subst. auto. }
  apply in_flat_map in G. auto.
Qed.
Lemma kid_some : forall props x n c, distinct props -> In x props -> In (n, c) (kids (snd x)) -> kid props n = Some c.
Proof.
  intros props x n c HD I J. destruct (kid props n) as [c'|] eqn:E.
  - apply kid_in in E. destruct E as (y & I' & J'). assert (x = y) by (apply (distinct_child props x y n); auto; eapply kids_children; eauto). subst y. f_equal. symmetry. eapply kids_nodup; eauto. apply (distinct_kids props); auto.
  - exfalso. unfold kid in E. assert (G : In (n, c) (flat_map (fun x => kids (snd x)) props)) by (apply in_flat_map; eauto).
    revert E G. generalize (flat_map (fun x : Z * prop => kids (snd x)) props). induction l as [|[k v] l IH]; cbn; [tauto|]. destruct (zlist_eqb k n) eqn:F; [discriminate|]. intros E [[= -> ->]|G]; auto. rewrite zlist_eqb_refl in F. discriminate.
Qed.

(** ** Reading *)
Section Code.
Variable names : Z -> Z -> list Z.

Lemma listed_same : forall p d d', (forall n, In n (indexes p) -> dget d' n = dget d n) -> listed p d -> listed p d'.
Proof.
  intros p d d' H HI. destruct p as [| | |da [n|] ? ? items|da [n|] ? ? [kp|] [ks|] items| |f da [n|] [i|] [k|] [s|] refs]; cbn [listed indexes] in *; auto;
    destruct HI as (b & E & G); exists b; split; auto; rewrite H; auto; left; auto.
Qed.
Lemma indexed_listed : forall Q p d, prop_form Q p -> indexed p d -> listed p d.
Proof.
  intros Q p d HF HI. destruct p as [f da|da nm c|da nm o|da nm next last items|da nm next last kp ks items|f da i k s r|f da nm i k s r]; cbn [prop_form indexed listed] in *; auto.
  - destruct HF as (n & (-> & _) & HO). destruct HI as (b & E & G). exists b. split; auto. apply C32_vector. auto.
  - destruct HF as (n & size & (-> & _) & HP & -> & HS & HL & HU & HO). destruct kp as [kp|]; [|congruence]. destruct HI as (b & E & G). exists b. split; auto. apply C32_set; auto; cbn [si_refs si_size].
    + rewrite Forall_map. cbn [fst]. auto.
    + rewrite map_map. cbn [fst]. auto.
  - destruct HF as (Hf & n & size & (-> & _) & H1 & H2 & -> & HS & HL). destruct i as [i|]; [|congruence]. destruct k as [k|]; [|congruence]. destruct HI as (b & E & G). exists b. split; auto. apply C32_weak_array; auto.
Qed.
Lemma data_stored : forall Q cls pid p e, prop_form Q p -> data_of p = Some e -> stored names cls pid p e.
Proof.
  intros Q cls pid p e HF HD. destruct p as [f da|da nm c|da nm o|da nm next last items|da nm next last kp ks items|f da i k s r|f da nm i k s r]; auto. cbn [prop_form data_of stored] in *.
  destruct HF as (n & (-> & Hne & HN & e' & HE & ->) & HO). injection HD as ->. rewrite (decode_encode_utf16le _ _ HN HE). rewrite vec_name_some by auto. split; auto. exists e. split; auto. destruct n; [congruence|auto].
Qed.

Lemma read_synced : forall Q rec d cls pid p e, prop_form Q p -> listed p d ->
  (forall n b, In (n, b) (streams p) -> dget d n = Some (File b)) ->
  (forall n c, In (n, c) (kids p) -> exists s, dget d n = Some (Sub s) /\ rec s = Ok c) ->
  stored names cls pid p e -> read_prop names rec d cls pid (prop_format p) e = Ok p.
Proof.
  intros Q rec d cls pid p e HF HI HT HK HD. destruct p as [f da|da nm c|da nm o|da nm next last items|da nm next last kp ks items|f da i k s r|f da nm i k s r]; cbn [prop_form listed stored data_of prop_format streams kids] in *.
  - subst da. cbn in HF. destruct HF as [<-|[<-|[<-|[]]]]; reflexivity.
  - destruct HF as (n & e' & b & -> & HN & HE & -> & ->). injection HD as <-. unfold read_prop. change (66 =? 66) with true. cbn iota.
    change (zdrop 1 (85 :: e')) with (zdrop (zlen [85]) ([85] ++ e')). rewrite zdrop_app_exact, (decode_encode_utf16le _ _ HN HE), (HT n b (or_introl eq_refl)). auto.
  - destruct HF as (n & (-> & _ & HN & e' & HE & ->) & HO). injection HD as <-. destruct o as [o|]; [|destruct HO]. destruct (HK n o (or_introl eq_refl)) as (s & G & E). unfold read_prop. change (34 =? 66) with false. change (34 =? 34) with true. cbn iota.
    rewrite (decode_encode_utf16le _ _ HN HE). unfold read_sub. rewrite G, E. auto.
  - destruct HD as (-> & e' & HE & ->). set (n := vec_name names cls pid (Some (decode_utf16le e))) in *. destruct HI as (b & G & E). unfold read_prop. change (50 =? 66) with false. change (50 =? 34) with false. change (50 =? 50) with true. cbn iota. cbv zeta.
    fold n. replace (match Some (decode_utf16le e) with Some (_ :: _) => Ok e | _ => encode_utf16le n end) with (Ok e' : result (list Z)) by (rewrite <- HE; destruct (decode_utf16le e); auto). cbn [bind].
    unfold read_stream. rewrite G. cbn [bind]. rewrite E. cbn [bind].
    rewrite (all_of_map _ _ (fun k => do o <- read_sub rec d (element_storage n k) ;; Ok (k, o)) fst). { auto. }
    intros [k o] I. destruct (HK (element_storage n k) o) as (s & E1 & E2). { apply in_map_iff. exists (k, o). auto. } cbn [fst snd] in *. unfold read_sub. rewrite E1, E2. auto.
  - destruct HF as (n & size & (-> & Hne & HN & e' & HE & ->) & HP & -> & HS & HL & HU & HO). injection HD as <-. destruct kp as [kp|]; [|congruence]. destruct HI as (b & G & E). unfold read_prop.
    change (58 =? 66) with false. change (58 =? 34) with false. change (58 =? 50) with false. change (58 =? 58) with true. cbn iota. cbv zeta.
    rewrite (decode_encode_utf16le _ _ HN HE). unfold read_stream. rewrite G. cbn [bind]. rewrite E.
    cbn [bind si_refs si_next si_last si_pid si_size].
    rewrite (all_of_map _ _ (fun x => do o <- read_sub rec d (element_storage n (snd x)) ;; Ok (fst x, (snd x, o))) (fun x => (fst x, fst (snd x)))). { auto. }
    intros [u [k o]] I. destruct (HK (element_storage n k) o) as (s & E1 & E2). { apply in_map_iff. exists (u, (k, o)). auto. } cbn [fst snd] in *. unfold read_sub. rewrite E1, E2. auto.
  - destruct HF as (Hf & i' & k' & r' & -> & -> & -> & -> & e' & HE & ->). injection HD as <-. pose proof (C32_weak_value _ _ _ _ HE) as X.
    cbn in Hf. destruct Hf as [<-|[<-|[]]]; unfold read_prop; cbn [Z.eqb Pos.eqb orb]; rewrite X; auto.
  - destruct HF as (Hf & n & size & (-> & Hne & HN & e' & HE & ->) & H1 & H2 & -> & HS & HL). injection HD as <-. destruct i as [i|]; [|congruence]. destruct k as [k|]; [|congruence]. destruct HI as (b & G & X).
    cbn in Hf. destruct Hf as [<-|[<-|[]]]; unfold read_prop; cbn [Z.eqb Pos.eqb orb]; rewrite (decode_encode_utf16le _ _ HN HE); unfold read_stream; rewrite G; cbn [bind]; rewrite X; auto.
Qed.

Lemma form_kids : forall Q p n c, prop_form Q p -> In (n, c) (kids p) -> Q c.
Proof.
  intros Q p n c HF I. destruct p as [|da [m|] co|da [m|] [o|]|da [m|] ? ? items|da [m|] ? ? ? ? items| |]; cbn [kids prop_form] in *; try (destruct I; fail).
  - destruct I as [[= <- <-]|[]]. destruct HF as (nn & _ & W). auto.
  - destruct HF as (nn & _ & W). rewrite every_Forall in W. rewrite Forall_forall in W. apply in_map_iff in I. destruct I as (x & [= <- <-] & I). auto.
  - destruct HF as (nn & size & _ & _ & _ & _ & _ & _ & W). rewrite every_Forall in W. rewrite Forall_forall in W. apply in_map_iff in I. destruct I as (x & [= <- <-] & I). auto.
Qed.
Lemma kids_depth : forall cls props x n c, In x props -> In (n, c) (kids (snd x)) -> (depth c < depth (Obj cls props))%nat.
Proof.
  intros cls props x n c I J. cbn [depth]. apply le_n_S.
  match goal with |- (_ <= most ?f props)%nat => assert (L : (most f props <= most f props)%nat) by auto end. rewrite most_le in L. rewrite Forall_forall in L. specialize (L x I). cbv beta in L. eapply Nat.le_trans; [|exact L].
  destruct (snd x) as [|da [m|] co|da [m|] [o|]|da [m|] ? ? items|da [m|] ? ? ? ? items| |]; cbn [kids] in *; try (destruct J; fail).
  - destruct J as [[= <- <-]|[]]. auto.
  - apply in_map_iff in J. destruct J as (y & [= <- <-] & J).
    match goal with |- (_ <= most ?f items)%nat => assert (L2 : (most f items <= most f items)%nat) by auto end. rewrite most_le in L2. rewrite Forall_forall in L2. apply (L2 y J).
  - apply in_map_iff in J. destruct J as (y & [= <- <-] & J).
    match goal with |- (_ <= most ?f items)%nat => assert (L2 : (most f items <= most f items)%nat) by auto end. rewrite most_le in L2. rewrite Forall_forall in L2. apply (L2 y J).
Qed.

(** When nothing is marked any more, the file is read as what is in memory. *)
Theorem synced_read : forall o (M : path -> Prop) d fuel, well_formed o -> sync names M d o -> (forall w, In w (paths o) -> ~ M w) -> (depth o <= fuel)%nat -> read_obj names fuel d = Ok o.
Proof.
  intros o. induction o as [cls props IH] using obj_induct. rewrite Forall_forall in IH. intros M d fuel HW HS HM HD. destruct fuel as [|fuel]; [cbn in HD; lia|].
  inversion HS as [M0 d0 cls0 props0 HC HV HT HK]; subst. destruct (HV (HM [] (paths_nil _))) as (HB & HX). cbn [well_formed] in HW. destruct HW as (NP & ND & HF). rewrite every_Forall in HF. rewrite Forall_forall in HF.
  cbn [read_obj]. destruct d as [c its]. cbn [class_of] in *. destruct (dget (Dir c its) (codes "properties")) as [[b|]|]; [|destruct HB|subst; auto].
  destruct HB as (v & es & R1 & R2). rewrite R1. cbn [bind].
  assert (A : all_of (fun e => do p <- read_prop names (read_obj names fuel) (Dir c its) c (fst e) (fst (snd e)) (snd (snd e)) ;; Ok (fst e, p)) es = Ok props).
  { clear R1 b. apply all_of_Forall2. assert (R3 : Forall (fun x => In x props) props) by (rewrite Forall_forall; auto).
    assert (G : forall es l, Forall2 (fun e x => fst e = fst x /\ fst (snd e) = prop_format (snd x) /\ stored names c (fst x) (snd x) (snd (snd e))) es l -> Forall (fun x => In x props) l ->
      Forall2 (fun e x => (do p <- read_prop names (read_obj names fuel) (Dir c its) c (fst e) (fst (snd e)) (snd (snd e)) ;; Ok (fst e, p)) = Ok x) es l); [|apply G; auto].
    clear R2 R3 es. intros es l R2 R3. induction R2 as [|e [pid p] es l (X1 & X2 & X3) R2 IHl]; [constructor|]. inversion R3 as [|? ? I R4]; subst. constructor; [|apply IHl; auto].
    cbn [fst snd] in *. rewrite X1, X2. rewrite (read_synced well_formed (read_obj names fuel) _ _ _ p); auto.
    - apply (HF _ I).
    - rewrite Forall_forall in HX. apply (HX _ I).
    - intros n b0 J. apply (HT _ n b0 I J).
    - intros n o J. destruct (HK _ n o I J) as (s & G & S). exists s. split; auto. apply (below_kids _ _ _ _ (IH _ I) J (fun w => M (n :: w))); auto.
      + eapply form_kids; [apply (HF _ I)|exact J].
      + intros w K. apply HM. apply paths_cons. eauto.
      + pose proof (kids_depth c props _ n o I J). lia. }
  rewrite A. auto.
Qed.

(** ** Saving one object *)
Lemma sync_inv : forall M d cls props, sync names M d (Obj cls props) ->
  class_of d = cls /\ (~ M [] -> saved names cls props d) /\
  (forall x n b, In x props -> In (n, b) (streams (snd x)) -> dget d n = Some (File b)) /\
  (forall x n c, In x props -> In (n, c) (kids (snd x)) -> exists s, dget d n = Some (Sub s) /\ sync names (fun w => M (n :: w)) s c).
Proof. intros M d cls props H. inversion H; subst. auto. Qed.

Lemma ready_form : forall cls props x, ready names (Obj cls props) -> In x props -> prop_form (ready names) (snd x).
Proof. intros cls props x (_ & _ & H) I. rewrite every_Forall in H. rewrite Forall_forall in H. destruct (H x I) as ((F & _) & _). auto. Qed.

Lemma save_sync : forall cls props (M M' : path -> Prop) d d', ready names (Obj cls props) -> sync names M d (Obj cls props) -> save_obj names cls props d = Ok d' ->
  (forall w, w <> [] -> M w -> M' w) -> sync names M' d' (Obj cls props).
Proof.
  intros cls props M M' d d' HR HS H HM. pose proof (ready_distinct _ _ _ HR) as HD. apply sync_inv in HS. destruct HS as (HC & _ & HT & HK).
  unfold save_obj in H. destruct (all_of _ props) as [es|] eqn:E2; [|discriminate]. cbn [bind] in H.
  assert (HF : forall x, In x props -> prop_form (ready names) (snd x)) by (intros; eapply ready_form; eauto).
  assert (Hes : es = map (fun x => (fst x, prop_format (snd x), data_of (snd x))) props).
  { apply all_of_Forall2 in E2. clear - E2 HF. induction E2 as [|x y l r E F G]; auto. cbn [map]. rewrite (prop_data_ok names _ _ _ _ (HF x (or_introl eq_refl))) in E. cbn in E. f_equal; [congruence|]. apply G. intros. apply HF. right. auto. }
  destruct (encode_properties es) as [b|] eqn:E3; [|discriminate]. cbn [bind] in H. destruct (put_stream d _ b) as [d2|] eqn:E4; [|discriminate]. cbn [bind] in H. apply put_stream_ok in E4.
  apply (each_frame _ _ (fun x => indexes (snd x)) (fun x d => indexed (snd x) d)) in H; auto.
  2:{ intros x e e' I G. eapply index_prop_ok; eauto. }
  2:{ intros x e e' I G. apply indexed_same. auto. }
  2:{ destruct HD as (_ & HD). inversion HD as [|? ? _ N]; subst. apply NoDup_app_iff in N. tauto. }
  destruct H as (A3 & C3 & F3).
  assert (OLD : forall x n, In x props -> In n (children (snd x)) -> dget d' n = dget d n).
  { intros x n I J. rewrite F3.
    - rewrite E4, dget_put. destruct (zlist_eqb (codes "properties") n) eqn:Z; auto. apply zlist_eqb_spec in Z. exfalso. apply (distinct_props props x n); auto.
    - intros K. apply in_flat_map in K. destruct K as (y & K & L). eapply distinct_index; [exact HD|exact I|exact K|exact J|exact L]. }
  constructor.
  - rewrite C3, E4. destruct d. auto.
  - intros _. split.
    + assert (GP : dget d' (codes "properties") = Some (File b)).
      { rewrite F3, E4, get_put_same; auto. intros K. apply in_flat_map in K. destruct K as (y & K & L). apply (distinct_props props y _ HD K (or_intror L)). auto. }
      rewrite GP. destruct (C28_roundtrip [] es b) as (rs & R1 & R2).
      { unfold write_properties. rewrite E3. auto. }
      { rewrite Hes, map_map. cbn [fst]. apply HD. }
      { rewrite Hes. rewrite Forall_forall. intros x I. apply in_map_iff in I. destruct I as (y & <- & I). cbn [fst snd]. eapply form_format; eauto. }
      exists 32, rs. split; auto. rewrite Hes in R2. clear - R2 HF. revert rs R2. induction props as [|x l IHl]; intros [|r rs] R2; cbn [map] in R2; try discriminate; constructor.
      * injection R2 as X1 X2 X3 X4. split; auto. split; auto. eapply data_stored; [apply HF; left; auto|auto].
      * apply IHl; [intros; apply HF; right; auto|]. injection R2 as X1 X2 X3 X4. auto.
    + rewrite Forall_forall in *. intros x I. eapply indexed_listed; eauto.
  - intros x n b0 I J. rewrite (OLD x n I); eauto using streams_children.
  - intros x n c I J. rewrite (OLD x n I) by (eapply kids_children; eauto). destruct (HK x n c I J) as (s & G & S). exists s. split; auto. eapply sync_weaken; [exact S|]. intros w _. apply HM. congruence.
Qed.

(** ** Attaching *)
Lemma attached_kids : forall rec p d n c, attached rec p d -> In (n, c) (kids p) -> exists s s', rec s c = Ok s' /\ dget d n = Some (Sub s').
Proof.
  intros rec p d n c H I. destruct p as [|da [m|] co|da [m|] [o|]|da [m|] ? ? items|da [m|] ? ? ? ? items| |]; cbn [kids attached] in *; try (destruct I; fail).
  - destruct I as [[= <- <-]|[]]. auto.
  - rewrite Forall_forall in H. apply in_map_iff in I. destruct I as (x & [= <- <-] & I). apply (H x I).
  - rewrite Forall_forall in H. apply in_map_iff in I. destruct I as (x & [= <- <-] & I). apply (H x I).
Qed.
Lemma attached_streams : forall rec p d n b, attached rec p d -> In (n, b) (streams p) -> dget d n = Some (File b).
Proof.
  intros rec p d n b H I. destruct p as [|da [m|] [co|]|da [m|] [o|]|da [m|] ? ? items|da [m|] ? ? ? ? items| |]; cbn [streams attached] in *; try (destruct I; fail). destruct I as [[= <- <-]|[]]. auto.
Qed.
Lemma attach_sync : forall o (M : path -> Prop) d d', ready names o -> attach_obj names d o = Ok d' -> (forall w, In w (paths o) -> M w) -> sync names M d' o.
Proof.
  intros o. induction o as [cls props IH] using obj_induct. rewrite Forall_forall in IH. intros M d d' HR H HM. pose proof (ready_distinct _ _ _ HR) as HD.
  assert (HF : forall x, In x props -> prop_form (ready names) (snd x)) by (intros; eapply ready_form; eauto).
  cbn [attach_obj] in H.
  apply (each_frame _ _ (fun x => children (snd x)) (fun x d => attached (attach_obj names) (snd x) d)) in H; auto.
  2:{ intros x e e' I G. eapply attach_prop_ok; eauto. apply (distinct_kids props); auto. }
  2:{ intros x e e' I G. apply attached_same. auto. }
  2:{ destruct HD as (_ & HD). inversion HD as [|? ? _ N]; subst. apply NoDup_app_iff in N. tauto. }
  destruct H as (A1 & C1 & F1). rewrite class_set in C1. rewrite Forall_forall in A1. constructor; auto.
  - intros N. exfalso. apply N, HM. apply paths_nil.
  - intros x n b I J. eapply attached_streams; eauto.
  - intros x n c I J. destruct (attached_kids _ _ _ _ _ (A1 x I) J) as (s & s' & E & G). exists s'. split; auto. apply (below_kids _ _ _ _ (IH x I) J) with (d := s); auto.
    + eapply form_kids; [apply (HF x I)|exact J].
    + intros w K. apply HM. apply paths_cons. eauto.
Qed.

End Code.

(** ** Going to an object below *)
Lemma put_kid_kids : forall n c p m c2, In (m, c2) (kids (put_kid n c p)) -> (m = n /\ c2 = c) \/ (m <> n /\ In (m, c2) (kids p)).
Proof.
  intros n c p m c2 I.
  assert (D : forall (k : list Z) (o : obj), (k, if zlist_eqb k n then c else o) = (m, c2) -> (m = n /\ c2 = c) \/ (m <> n /\ (k, o) = (m, c2))).
  { intros k o [= -> E]. destruct (zlist_eqb m n) eqn:Z; [apply zlist_eqb_spec in Z; subst; auto|]. right. split; [|congruence]. intros ->. rewrite zlist_eqb_refl in Z. discriminate. }
  destruct p as [|da [k|] co|da [k|] [o|]|da [k|] ? ? items|da [k|] ? ? ? ? items| |]; cbn [kids put_kid] in *; try (destruct I; fail).
  - destruct I as [I|[]]. apply D in I. cbn. tauto.
  - rewrite map_map in I. apply in_map_iff in I. destruct I as (x & E & I). cbn [fst snd] in E. apply D in E. destruct E as [E|[E1 E2]]; [auto|right]. split; auto. apply in_map_iff. eauto.
  - rewrite map_map in I. apply in_map_iff in I. destruct I as (x & E & I). cbn [fst snd] in E. apply D in E. destruct E as [E|[E1 E2]]; [auto|right]. split; auto. apply in_map_iff. eauto.
Qed.
Lemma put_kid_streams : forall n c p, streams (put_kid n c p) = streams p.
Proof. intros n c p. destruct p as [|da [k|] co|da [k|] [o|]|da [k|] ? ? items|da [k|] ? ? ? ? items| |]; auto. Qed.
Lemma put_kid_children : forall n c p, children (put_kid n c p) = children p.
Proof. intros n c p. destruct p as [|da [k|] co|da [k|] [o|]|da [k|] ? ? items|da [k|] ? ? ? ? items| |]; auto; cbn; rewrite map_map; auto. Qed.
Lemma put_kid_data : forall n c p, data_of (put_kid n c p) = data_of p /\ prop_format (put_kid n c p) = prop_format p.
Proof. intros n c p. destruct p as [|da [k|] co|da [k|] [o|]|da [k|] ? ? items|da [k|] ? ? ? ? items| |]; auto. Qed.
Lemma put_kid_listed : forall n c p d, listed p d -> listed (put_kid n c p) d.
Proof.
  intros n c p d H. destruct p as [|da [k|] co|da [k|] [o|]|da [k|] ? ? items|da [k|] ? ? [kp|] [ks|] items| |]; auto; cbn [put_kid listed] in *; rewrite map_map; auto.
Qed.
Lemma put_kid_stored : forall names cls pid n c p e, stored names cls pid p e -> stored names cls pid (put_kid n c p) e.
Proof. intros names cls pid n c p e H. destruct p as [|da [k|] co|da [k|] [o|]|da [k|] ? ? items|da [k|] ? ? [kp|] [ks|] items| |]; auto. Qed.
Lemma put_kid_ready : forall names (P : obj -> Prop) cls pid n c p, P c -> prop_ready names P cls pid p -> prop_ready names P cls pid (put_kid n c p).
Proof.
  intros names P cls pid n c p HC ((F & H) & R). destruct p as [|da [k|] co|da [k|] [o|]|da [k|] next last items|da [k|] next last kp ks items| |]; cbn [put_kid]; try (split; [split|]; assumption).
  - split; auto. split; auto. cbn [prop_form] in *. destruct F as (nn & F1 & F2). exists nn. split; auto. destruct (zlist_eqb k n); auto.
  - split; [split|]; cbn [prop_form] in *.
    + destruct F as (nn & F1 & F2). exists nn. split; auto. rewrite every_Forall, Forall_map in *. eapply Forall_impl; [|exact F2]. intros x X. cbn. destruct (zlist_eqb _ n); auto.
    + rewrite Forall_map, map_map. cbn [fst]. auto.
    + rewrite Forall_map. cbn [fst]. auto.
  - split; [split|]; cbn [prop_form] in *.
    + destruct F as (nn & size & F1 & F2 & F3 & F4 & F5 & F6 & F7). exists nn, size. do 4 (split; [auto; fail|]). split; [rewrite Forall_map; cbn [fst]; auto|]. split; [rewrite map_map; cbn [fst]; auto|].
      rewrite every_Forall, Forall_map in *. eapply Forall_impl; [|exact F7]. intros x X. cbn. destruct (zlist_eqb _ n); auto.
    + rewrite Forall_map, map_map. cbn [fst snd]. auto.
    + rewrite Forall_map. cbn [fst snd]. auto.
Qed.
Lemma put_kid_obj : forall names cls props n c, ready names c -> ready names (Obj cls props) -> ready names (Obj cls (map (fun x => (fst x, put_kid n c (snd x))) props)).
Proof.
  intros names cls props n c HC (H1 & H2 & H3). cbn [ready]. rewrite map_map, Forall_map, every_Forall, Forall_map in *. cbn [fst snd]. split; auto. split; auto. eapply Forall_impl; [|exact H3]. intros x X. apply put_kid_ready; auto.
Qed.

(** the object at a place *)
Fixpoint look (w : path) (o : obj) : option obj :=
  match w with [] => Some o | n :: r => match o with Obj _ props => match kid props n with Some c => look r c | None => None end end end.
Lemma at_path_sync : forall names A (k : dir -> obj -> result (dir * obj * A)) w (M M' : path -> Prop) d o d' o' a,
  at_path k w d o = Ok (d', o', a) -> ready names o -> sync names M d o ->
  (forall s c s' c', look w o = Some c -> k s c = Ok (s', c', a) -> ready names c -> sync names (fun v => M (w ++ v)) s c -> ready names c' /\ sync names (fun v => M' (w ++ v)) s' c') ->
  (forall v, (forall u, v <> w ++ u) -> M v -> M' v) -> ready names o' /\ sync names M' d' o'.
Proof.
  intros names A k w. induction w as [|n r IH]; intros M M' d o d' o' a H HR HS HK HM.
  - cbn in H. destruct (HK _ _ _ _ eq_refl H HR) as [X Y]. { eapply sync_weaken; [exact HS|auto]. } split; auto.
  - destruct o as [cls props]. cbn [at_path] in H. destruct (kid props n) as [c|] eqn:EK; [|discriminate]. pose proof (ready_distinct _ _ _ HR) as HD. destruct (kid_in _ _ _ EK) as (x0 & I0 & J0).
    apply sync_inv in HS. destruct HS as (HC & HV & HT & HS). destruct (HS _ _ _ I0 J0) as (s & G & S0). rewrite G in H.
    destruct (at_path k r s c) as [[[s' c'] a']|] eqn:E; [|discriminate]. cbn [bind] in H. injection H as <- <- <-.
    destruct (IH (fun v => M (n :: v)) (fun v => M' (n :: v)) s c s' c' a' E) as (R' & S'); auto.
    { eapply form_kids; [eapply ready_form; eauto|exact J0]. }
    { intros t b t' b' EL. apply HK. cbn [look]. rewrite EK. auto. }
    { intros v Hv. apply HM. intros u [= Eq]. apply (Hv u). auto. }
    split; [apply put_kid_obj; auto|].
    assert (OT : forall m, m <> n -> dget (dput d n (Sub s')) m = dget d m).
    { intros m Hm. rewrite dget_put. destruct (zlist_eqb n m) eqn:Z; auto. apply zlist_eqb_spec in Z. congruence. }
    constructor.
    + destruct d; auto.
    + intros N. destruct HV as (B2 & B3). { intros X. apply N. apply HM; auto. intros u [=]. }
      split.
      * rewrite OT by (intros X; apply (distinct_props props x0 n HD I0); [left; eapply kids_children; eauto|auto]).
        destruct (dget d (codes "properties")) as [[b|]|]; auto; [|subst; auto]. destruct B2 as (v & es & B1 & B2). exists v, es. split; auto.
        clear - B2. induction B2 as [|e x es l (X1 & X2 & X3) B2 IH]; cbn [map]; constructor; auto. cbn [fst snd]. destruct (put_kid_data n c' (snd x)) as [_ ->]. split; auto. split; auto. apply put_kid_stored. auto.
      * rewrite Forall_map. rewrite Forall_forall in *. intros x I. cbn [snd]. apply put_kid_listed. apply (listed_same _ d); auto. intros m J. apply OT. intros ->. eapply distinct_index; [exact HD|exact I0|exact I|eapply kids_children; eauto|exact J].
    + intros x m b I J. apply in_map_iff in I. destruct I as (y & <- & I). cbn [snd] in J. rewrite put_kid_streams in J. rewrite OT; eauto. intros ->.
      assert (x0 = y) by (eapply (distinct_child props x0 y n); eauto using kids_children, streams_children). subst y. eapply no_stream_kid; eauto.
    + intros x m c2 I J. apply in_map_iff in I. destruct I as (y & <- & I). cbn [snd] in J. apply put_kid_kids in J. destruct J as [[-> ->]|[Hm J]].
      * exists s'. split; [apply get_put_same|auto].
      * destruct (HS _ _ _ I J) as (t & G2 & S2). exists t. split; [rewrite OT; auto|]. eapply sync_weaken; [exact S2|]. intros v _. apply HM. intros u [=]. congruence.
Qed.

(** ** Changing one object *)

(** what a change does with the objects below and the streams *)
Record edit_ok (props props' : list (Z * prop)) (gone : list (list Z)) (new : list (list Z * obj)) : Prop := EditOk {
  ok_kids : forall x n c, In x props' -> In (n, c) (kids (snd x)) ->
    In (n, c) new \/ ((exists y, In y props /\ In (n, c) (kids (snd y))) /\ ~ In n gone /\ ~ In n (map fst new));
  ok_streams : forall x n b, In x props' -> In (n, b) (streams (snd x)) ->
    (exists y, In y props /\ In (n, b) (streams (snd y))) /\ ~ In n gone /\ ~ In n (map fst new);
  ok_new : NoDup (map fst new) }.

Lemma within_frame : forall d n k d', within d n k = Ok d' -> frame [n] d d'.
Proof.
  intros d n k d' H. unfold within in H. destruct (dget d n) as [[f|s]|]; try discriminate. destruct (k s) as [s'|]; [|discriminate]. cbn in H. injection H as <-. apply frame_put.
Qed.
Lemma each_within : forall A (f : A -> dir -> result dir) (own : A -> list (list Z)) l d d', (forall x d d', f x d = Ok d' -> frame (own x) d d') -> each f l d = Ok d' -> frame (flat_map own l) d d'.
Proof.
  intros A f own. induction l as [|x l IH]; intros d d' Hf H; cbn in H. { injection H as <-. split; auto. }
  destruct (f x d) as [d1|] eqn:E; [|discriminate]. cbn [bind] in H. destruct (Hf _ _ _ E) as (C1 & F1). destruct (IH _ _ Hf H) as (C2 & F2). split; [congruence|]. intros m Hm. cbn [flat_map] in Hm. rewrite F2, F1; auto; intros I; apply Hm; apply in_or_app; auto.
Qed.

Lemma edit_sync : forall names cls props props' gone new d d1 d2 (M M' : path -> Prop),
  sync names M d (Obj cls props) -> edit_ok props props' gone new -> Forall (fun x => ready names (snd x)) new ->
  each (fun n d => match kid props n with Some c => within d n (detach_obj c) | None => Err GenericError end) gone d = Ok d1 ->
  each (fun x d => in_sub d (fst x) (fun s => attach_obj names s (snd x))) new d1 = Ok d2 ->
  M' [] -> (forall n c v, In (n, c) new -> In v (paths c) -> M' (n :: v)) ->
  (forall n v, ~ In n gone -> M (n :: v) -> M' (n :: v)) ->
  sync names M' d2 (Obj cls props').
Proof.
  intros names cls props props' gone new d d1 d2 M M' HS [OK OS ON] HR H1 H2 M0 M1 M2. apply sync_inv in HS. destruct HS as (HC & HV & HT & HK).
  apply (each_within _ _ (fun n => [n])) in H1.
  2:{ intros n e e' H. destruct (kid props n) as [c|]; [|discriminate]. eapply within_frame; eauto. }
  replace (flat_map (fun n => [n]) gone) with gone in H1 by (clear; induction gone; cbn; f_equal; auto). destruct H1 as (C1 & F1).
  apply (elements_ok _ (fun x => fst x) (fun x => snd x) (attach_obj names)) in H2; auto. destruct H2 as (A2 & C2 & F2). rewrite Forall_forall in A2, HR.
  assert (OT : forall n, ~ In n gone -> ~ In n (map fst new) -> dget d2 n = dget d n). { intros n N1 N2. rewrite F2, F1; auto. }
  constructor.
  - congruence.
  - intros N. exfalso. auto.
  - intros x n b I J. destruct (OS x n b I J) as ((y & I' & J') & N1 & N2). rewrite OT; eauto.
  - intros x n c I J. destruct (OK x n c I J) as [K|((y & I' & J') & N1 & N2)].
    + destruct (A2 _ K) as (s & s' & E & G). cbn [fst snd] in *. exists s'. split; auto. eapply attach_sync; [apply (HR _ K)|exact E|]. intros w L. eapply M1; eauto.
    + destruct (HK y n c I' J') as (s & G & S). exists s. split; [rewrite OT; auto|]. eapply sync_weaken; [exact S|]. intros w _. apply M2. auto.
Qed.

(** ** The changes *)
Lemma in_dict_set : forall (l : list (Z * prop)) k v x, NoDup (map fst l) -> In x (dict_set Z.eqb l k v) -> x = (k, v) \/ (In x l /\ fst x <> k).
Proof.
  induction l as [|[k' v'] l IH]; intros k v x HN I; cbn in I. { destruct I as [<-|[]]. auto. }
  cbn [map fst] in HN. inversion HN as [|? ? N1 N2]; subst. destruct (k' =? k) eqn:E.
  - apply Z.eqb_eq in E. subst k'. destruct I as [<-|I]; [auto|]. right. split; [right; auto|]. intros X. apply N1. apply in_map_iff. eauto.
  - apply Z.eqb_neq in E. destruct I as [<-|I]; [right; split; [left; auto|auto]|]. apply IH in I; auto. destruct I as [I|[I1 I2]]; auto. right. split; auto. right. auto.
Qed.
Lemma dict_get_In : forall (l : list (Z * prop)) k v, dict_get Z.eqb l k = Some v -> In (k, v) l.
Proof. induction l as [|[k' v'] l IH]; intros k v H; cbn in H; [discriminate|]. destruct (k' =? k) eqn:E; [apply Z.eqb_eq in E; left; congruence|right; auto]. Qed.

Lemma znth_split : forall A (l : list A) i x, znth l i = Some x -> l = ztake i l ++ x :: zdrop (i + 1) l /\ 0 <= i.
Proof.
  intros A l i x H. pose proof (znth_Some _ _ _ _ H) as R. split; [|lia]. unfold znth in H. destruct ((0 <=? i) && (i <? zlen l)); [|discriminate].
  unfold ztake, zdrop. rewrite !Z.min_l by lia. replace (Z.to_nat (i + 1)) with (S (Z.to_nat i)) by lia. revert H. generalize (Z.to_nat i). clear. intros n. revert l. induction n as [|n IH]; intros [|y l] H; cbn in *; try discriminate; [congruence|]. f_equal. auto.
Qed.
Lemma zupd_split : forall A (l : list A) i x v, znth l i = Some x -> zupd l i v = ztake i l ++ v :: zdrop (i + 1) l.
Proof.
  intros A l i x v H. pose proof (znth_Some _ _ _ _ H) as R. unfold zupd. replace ((0 <=? i) && (i <? zlen l)) with true by lia.
  unfold ztake, zdrop. rewrite !Z.min_l by lia. replace (Z.to_nat (i + 1)) with (S (Z.to_nat i)) by lia. unfold znth in H. destruct ((0 <=? i) && (i <? zlen l)); [|discriminate].
  revert H. generalize (Z.to_nat i). clear. intros n. revert l. induction n as [|n IH]; intros [|y l] H; cbn in *; try discriminate; auto. f_equal. auto.
Qed.
Lemma insert_split : forall A (l : list A) i a, insert_at l i a = ztake i l ++ a :: zdrop i l /\ l = ztake i l ++ zdrop i l.
Proof. intros. split; auto. unfold ztake, zdrop. symmetry. apply firstn_skipn. Qed.

Section Change.
Variable names : Z -> Z -> list Z.
Hypothesis NB : forall cls pid, Forall bmp (names cls pid).

Lemma ready_child : forall cls props x n, ready names (Obj cls props) -> In x props -> In n (children (snd x)) -> exists g, n = gen_name (names cls) g /\ gen_ok g /\ gpid g = fst x.
Proof.
  intros cls props x n (H1 & H2 & H3) I J. rewrite every_Forall in H3. rewrite Forall_forall in H2, H3. destruct (H3 x I) as (PM & _). specialize (H2 x I). rewrite (children_gens _ _ _ _ _ PM) in J. apply in_map_iff in J. destruct J as (g & <- & J). exists g. split; auto.
  destruct (gens_ok names (ready names) cls (fst x) (snd x)) as (G1 & _); [lia|auto|]. rewrite Forall_forall in G1. split; auto.
  destruct (snd x) as [f da|da nm c|da nm o|da nm next last items|da nm next last kp ks items|f da i k s r|f da nm i k s r]; cbn [child_gens] in J; try (destruct J as [<-|[]]; auto; fail); try (destruct J; fail); apply in_map_iff in J; destruct J as (y & <- & _); auto.
Qed.

Lemma one_prop : forall cls props pid p gone new, ready names (Obj cls props) -> 0 <= pid < 65536 -> prop_ready names (ready names) cls pid p ->
  (forall n c, In (n, c) (kids p) -> In (n, c) new \/ ((exists q, In (pid, q) props /\ In (n, c) (kids q)) /\ ~ In n gone /\ ~ In n (map fst new))) ->
  streams p = [] ->
  (forall n, In n gone \/ In n (map fst new) -> exists g, n = gen_name (names cls) g /\ gen_ok g /\ gpid g = pid) ->
  NoDup (map fst new) ->
  ready names (Obj cls (dict_set Z.eqb props pid p)) /\ edit_ok props (dict_set Z.eqb props pid p) gone new.
Proof.
  intros cls props pid p gone new HR HP PR P1 P2 P3 P4. pose proof HR as (H1 & H2 & H3). rewrite every_Forall in H3. rewrite Forall_forall in H2, H3. split.
  - cbn [ready]. split; [apply (dict_set_keys Z.eqb Z.eqb_eq); auto|]. rewrite every_Forall, !Forall_forall. split; intros x I; apply in_dict_set in I; auto; destruct I as [->|[I _]]; auto.
  - assert (OTH : forall x n, In x props -> fst x <> pid -> In n (children (snd x)) -> ~ In n gone /\ ~ In n (map fst new)).
    { intros x n I F J. destruct (ready_child _ _ _ _ HR I J) as (g & -> & G1 & G2). split; intros K; destruct (P3 (gen_name (names cls) g)) as (g' & E & G3 & G4); auto; apply gen_inj in E; auto; congruence. }
    constructor; auto.
    + intros x n c I J. apply in_dict_set in I; auto. destruct I as [->|[I F]].
      * destruct (P1 n c J) as [K|((q & Q1 & Q2) & K)]; auto. right. split; eauto.
      * right. split; eauto. apply (OTH x); auto. eapply kids_children; eauto.
    + intros x n b I J. apply in_dict_set in I; auto. destruct I as [->|[I F]].
      * cbn [snd] in J. rewrite P2 in J. destruct J.
      * split; eauto. apply (OTH x); auto. eapply streams_children; eauto.
Qed.

(** *** Pieces of lists *)
Lemma elem_inj : forall cls pid k1 k2, 0 <= pid -> 0 <= k1 -> 0 <= k2 ->
  element_storage (mangle_name (names cls pid) pid 22) k1 = element_storage (mangle_name (names cls pid) pid 22) k2 -> k1 = k2.
Proof. intros cls pid k1 k2 HP H1 H2 E. assert (X : GElem pid k1 = GElem pid k2) by (apply (gen_inj (names cls)); cbn; auto). congruence. Qed.
Lemma elem_in : forall cls pid k l, 0 <= pid -> 0 <= k -> Forall (fun y => 0 <= y) l ->
  In (element_storage (mangle_name (names cls pid) pid 22) k) (map (element_storage (mangle_name (names cls pid) pid 22)) l) -> In k l.
Proof. intros cls pid k l HP HK HL I. apply in_map_iff in I. destruct I as (y & E & I). rewrite Forall_forall in HL. apply elem_inj in E; auto. congruence. Qed.
Lemma elems_nodup : forall cls pid l, 0 <= pid -> Forall (fun y => 0 <= y) l -> NoDup l -> NoDup (map (element_storage (mangle_name (names cls pid) pid 22)) l).
Proof. intros cls pid l HP HL HN. apply (NoDup_map_inj _ _ _ (fun y => 0 <= y)); auto. intros x y. apply elem_inj. auto. Qed.

Lemma vec_edit : forall cls props pid da n next last items next' items' gk nk,
  ready names (Obj cls props) -> In (pid, PVec da (Some n) next last items) props \/ (items = [] /\ n = mangle_name (names cls pid) pid 22 /\ named da (Some n) n /\ 0 <= pid < 65536) ->
  0 <= next' -> NoDup (map fst items') -> Forall (fun x => 0 <= fst x < next' /\ ready names (snd x)) items' ->
  Forall (fun k => 0 <= k) gk -> Forall (fun k => 0 <= k) (map fst nk) -> NoDup (map fst nk) ->
  (forall x, In x items' -> In x nk \/ (In x items /\ ~ In (fst x) gk /\ ~ In (fst x) (map fst nk))) ->
  ready names (Obj cls (dict_set Z.eqb props pid (PVec da (Some n) next' last items'))) /\
  edit_ok props (dict_set Z.eqb props pid (PVec da (Some n) next' last items')) (map (element_storage n) gk) (map (fun y => (element_storage n (fst y), snd y)) nk).
Proof.
  intros cls props pid da n next last items next' items' gk nk HR HI H0 HN HF HG HK HU HX.
  assert (B : n = mangle_name (names cls pid) pid 22 /\ named da (Some n) n /\ 0 <= pid < 65536).
  { destruct HI as [I|(_ & H)]; auto. destruct HR as (_ & R2 & R3). rewrite every_Forall in R3. rewrite Forall_forall in R2, R3. destruct (R3 _ I) as (((nn & N1 & _) & N2 & _) & _). cbn [fst snd] in *. split; [congruence|]. split; [|apply (R2 _ I)]. destruct N1 as (E & N1). injection E as ->. split; auto. }
  destruct B as (-> & ND & HP).
  assert (NK : map fst (map (fun y => (element_storage (mangle_name (names cls pid) pid 22) (fst y), snd y)) nk) = map (element_storage (mangle_name (names cls pid) pid 22)) (map fst nk)) by (rewrite !map_map; auto).
  apply one_prop; auto.
  - split; [split|].
    + exists (mangle_name (names cls pid) pid 22). split; auto. rewrite every_Forall. eapply Forall_impl; [|exact HF]. cbn. tauto.
    + split; auto. split; auto. eapply Forall_impl; [|exact HF]. cbn. lia.
    + split; auto. eapply Forall_impl; [|exact HF]. cbn. lia.
  - intros m c J. cbn [kids] in J. apply in_map_iff in J. destruct J as (x & [= <- <-] & J). rewrite Forall_forall in HF. pose proof (HF x J) as (HF1 & _). destruct (HX x J) as [K|(K & K1 & K2)].
    + left. apply in_map_iff. exists x. auto.
    + right. split.
      * destruct HI as [I|(-> & _)]; [|destruct K]. eexists. split; [exact I|]. cbn [kids]. apply in_map_iff. exists x. auto.
      * rewrite NK. split; intros L; apply elem_in in L; auto; lia.
  - intros m J. rewrite NK in J. destruct J as [J|J]; apply in_map_iff in J; destruct J as (k & <- & J); exists (GElem pid k); cbn; rewrite Forall_forall in HG, HK; split; auto; split; auto; split; auto; lia.
  - rewrite NK. apply elems_nodup; auto. lia.
Qed.

Lemma set_edit : forall cls props pid da n next last kp ks items next' items' gk nk,
  ready names (Obj cls props) -> In (pid, PSet da (Some n) next last kp ks items) props \/ (items = [] /\ n = mangle_name (names cls pid) pid 22 /\ named da (Some n) n /\ 0 <= pid < 65536 /\ kp <> None /\ exists size, ks = Some size /\ (size = 16 \/ size = 32)) ->
  0 <= next' -> NoDup (map (fun x => fst (snd x)) items') -> NoDup (map fst items') -> Forall (fun x => ks = Some (zlen (fst x))) items' ->
  Forall (fun x => 0 <= fst (snd x) < next' /\ ready names (snd (snd x))) items' ->
  Forall (fun k => 0 <= k) gk -> Forall (fun k => 0 <= k) (map fst nk) -> NoDup (map fst nk) ->
  (forall x, In x items' -> In (snd x) nk \/ (In x items /\ ~ In (fst (snd x)) gk /\ ~ In (fst (snd x)) (map fst nk))) ->
  ready names (Obj cls (dict_set Z.eqb props pid (PSet da (Some n) next' last kp ks items'))) /\
  edit_ok props (dict_set Z.eqb props pid (PSet da (Some n) next' last kp ks items')) (map (element_storage n) gk) (map (fun y => (element_storage n (fst y), snd y)) nk).
Proof.
  intros cls props pid da n next last kp ks items next' items' gk nk HR HI H0 HN HN2 HZ HF HG HK HU HX.
  assert (B : n = mangle_name (names cls pid) pid 22 /\ named da (Some n) n /\ 0 <= pid < 65536 /\ kp <> None /\ exists size, ks = Some size /\ (size = 16 \/ size = 32)).
  { destruct HI as [I|(_ & H)]; auto. destruct HR as (_ & R2 & R3). rewrite every_Forall in R3. rewrite Forall_forall in R2, R3. destruct (R3 _ I) as (((nn & size & N1 & M1 & M2 & M3 & _) & N2 & _) & _). cbn [fst snd] in *. split; [congruence|]. split; [|split; [apply (R2 _ I)|split; [auto|exists size; auto]]]. destruct N1 as (E & N1). injection E as ->. split; auto. }
  destruct B as (-> & ND & HP & M1 & size & -> & M3).
  assert (NK : map fst (map (fun y => (element_storage (mangle_name (names cls pid) pid 22) (fst y), snd y)) nk) = map (element_storage (mangle_name (names cls pid) pid 22)) (map fst nk)) by (rewrite !map_map; auto).
  apply one_prop; auto.
  - split; [split|].
    + exists (mangle_name (names cls pid) pid 22), size. split; auto. split; auto. split; auto. split; auto. split. { eapply Forall_impl; [|exact HZ]. cbn. congruence. } split; auto. rewrite every_Forall. eapply Forall_impl; [|exact HF]. cbn. tauto.
    + split; auto. split; auto. eapply Forall_impl; [|exact HF]. cbn. lia.
    + split; auto. eapply Forall_impl; [|exact HF]. cbn. lia.
  - intros m c J. cbn [kids] in J. apply in_map_iff in J. destruct J as (x & [= <- <-] & J). rewrite Forall_forall in HF. pose proof (HF x J) as (HF1 & _). destruct (HX x J) as [K|(K & K1 & K2)].
    + left. apply in_map_iff. exists (snd x). auto.
    + right. split.
      * destruct HI as [I|(-> & _)]; [|destruct K]. eexists. split; [exact I|]. cbn [kids]. apply in_map_iff. exists x. auto.
      * rewrite NK. split; intros L; apply elem_in in L; auto; lia.
  - intros m J. rewrite NK in J. destruct J as [J|J]; apply in_map_iff in J; destruct J as (k & <- & J); exists (GElem pid k); cbn; rewrite Forall_forall in HG, HK; split; auto; split; auto; split; auto; lia.
  - rewrite NK. apply elems_nodup; auto. lia.
Qed.

(** Specification: arguments that fit. Values fit their property and class; an object that goes into a set
    has a unique key of the length the set has. *)
Definition leaf (p : prop) : Prop := match p with PData _ _ | PWeak _ _ _ _ _ _ | PWeaks _ _ _ _ _ _ _ => True | _ => False end.
Definition edit_fits (cls : Z) (props : list (Z * prop)) (e : edit) : Prop :=
  match e with
  | EPut pid p => 0 <= pid < 65536 /\ leaf p /\ prop_made names (fun _ => True) cls pid p
  | EDel _ | EPop _ _ | EClear _ | ERemove _ _ => True
  | ERef pid o _ | EAppend pid o | EAssign pid _ o | EInsert pid _ o => 0 <= pid < 65536 /\ ready names o
  | EAdd pid kpid ksize key o _ => 0 <= pid < 65536 /\ ready names o /\ (ksize = 16 \/ ksize = 32) /\ zlen key = ksize /\
      forall d n next last kp ks items, In (pid, PSet d n next last kp ks items) props -> ks = Some ksize
  end.

Lemma fresh_named : forall cls pid size e, 0 <= pid -> encode_utf16le (mangle_name (names cls pid) pid size) = Ok e -> named (Some e) (Some (mangle_name (names cls pid) pid size)) (mangle_name (names cls pid) pid size).
Proof. intros cls pid size e HP E. destruct (mangled_named names cls pid size NB HP) as (e' & E' & N). congruence. Qed.

Lemma edit_props_ok : forall cls props e props' gone new, ready names (Obj cls props) -> edit_fits cls props e -> edit_props names cls props e = Ok (props', gone, new) ->
  ready names (Obj cls props') /\ edit_ok props props' gone new /\ Forall (fun x => ready names (snd x)) new.
Proof.
  intros cls props e props' gone new HR HF H. pose proof HR as (R1 & R2 & R3). rewrite every_Forall in R3. rewrite Forall_forall in R2, R3.
  assert (G3 : forall A B C (x : A) (y : B) (z : C) a b c, Ok (x, y, z) = Ok (a, b, c) -> x = a /\ y = b /\ z = c) by (intros; repeat split; congruence).
  destruct e as [pid p|pid|pid o loaded|pid o|pid i o|pid i|pid i o|pid|pid kpid ksize key o loaded|pid key]; cbn [edit_props edit_fits] in *.
  - (* EPut *) apply G3 in H. destruct H as (<- & <- & <-). destruct HF as (HP & HL & HM).
    destruct (one_prop cls props pid p [] [] HR HP) as (X & Y); auto.
    + split; [eapply prop_made_mono; [|exact HM]|]; destruct p; cbn in *; auto; destruct HL.
    + intros n c J. destruct p; cbn in *; try (destruct HL; fail); destruct J.
    + destruct p; cbn in *; auto; destruct HL.
    + intros n [[]|[]].
    + constructor.
  - (* EDel *) apply G3 in H. destruct H as (<- & <- & <-). split; [|split; auto].
    + cbn [ready]. split; [|split].
      * clear - R1. induction props as [|[k v] r IH]; cbn; auto. cbn in R1. inversion R1 as [|? ? N1 N2]; subst. destruct (k =? pid); cbn; auto. constructor; auto. intros I. apply N1. apply in_map_iff in I. destruct I as (y & <- & I). apply filter_In in I. apply in_map. tauto.
      * rewrite Forall_forall. intros x I. apply filter_In in I. apply R2. tauto.
      * rewrite every_Forall, Forall_forall. intros x I. apply filter_In in I. apply R3. tauto.
    + constructor; [| |constructor].
      * intros x n c I J. apply filter_In in I. right. split; [exists x; tauto|auto].
      * intros x n c I J. apply filter_In in I. split; [exists x; tauto|auto].
  - (* ERef *) destruct HF as (HP & HO). destruct (dict_get Z.eqb props pid) as [[| |d [n|] old| | | |]|] eqn:EG; try discriminate.
    + apply G3 in H. destruct H as (<- & <- & <-). apply dict_get_In in EG. destruct (R3 _ EG) as (((nn & N1 & N2) & N3) & _). cbn [fst snd] in *. injection N3 as ->. destruct N1 as (N1a & N1b). injection N1a as <-.
      assert (GN : gen_name (names cls) (GRef pid) = mangle_name (names cls pid) pid 32) by auto.
      destruct (one_prop cls props pid (PRef d (Some (mangle_name (names cls pid) pid 32)) (Some o)) (match old with Some _ => if loaded then [mangle_name (names cls pid) pid 32] else [] | None => [] end) [(mangle_name (names cls pid) pid 32, o)] HR HP) as (X & Y); auto.
      * split; auto. split; auto. exists (mangle_name (names cls pid) pid 32). split; auto. split; auto.
      * intros m J. exists (GRef pid). rewrite GN. split; [|cbn; split; [lia|auto]]. destruct J as [J|[J|[]]]; auto. destruct old; [destruct loaded|]; cbn in J; try (destruct J; fail); destruct J as [J|[]]; auto.
      * repeat constructor. auto.
    + destruct (encode_utf16le _) as [e|] eqn:EE; [|discriminate]. cbn [bind] in H. apply G3 in H. destruct H as (<- & <- & <-).
      destruct (one_prop cls props pid (PRef (Some e) (Some (mangle_name (names cls pid) pid 32)) (Some o)) [] [(mangle_name (names cls pid) pid 32, o)] HR HP) as (X & Y); auto.
      * split; auto. split; auto. exists (mangle_name (names cls pid) pid 32). split; auto. apply fresh_named; auto. lia.
      * intros m J. exists (GRef pid). split; [|cbn; split; [lia|auto]]. destruct J as [[]|[J|[]]]; auto.
      * repeat constructor. auto.
  - (* EAppend *) destruct HF as (HP & HO). destruct (dict_get Z.eqb props pid) as [[| | |d [n|] next last items| | |]|] eqn:EG; try discriminate.
    + apply G3 in H. destruct H as (<- & <- & <-). apply dict_get_In in EG. destruct (R3 _ EG) as (((nn & N1 & N2) & N3 & N4 & N5) & N6 & N7). cbn [fst snd] in *. rewrite every_Forall in N2. rewrite Forall_forall in *.
      destruct (vec_edit cls props pid d n next last items (next + 1) (items ++ [(next, o)]) [] [(next, o)] HR (or_introl EG)) as (X & Y); try lia; auto.
      * rewrite map_app. apply NoDup_app_iff. split; auto. split; [repeat constructor; auto|]. intros k I [<-|[]]. apply in_map_iff in I. destruct I as (y & E & I). specialize (N7 y I). cbn [fst] in E. lia.
      * apply Forall_app. split; [|repeat constructor; cbn; auto; lia]. rewrite Forall_forall. intros x I. specialize (N7 x I). specialize (N5 x I). split; [lia|auto].
      * repeat constructor. auto.
      * repeat constructor. auto.
      * intros x I. apply in_app_iff in I. destruct I as [I|I]; [|auto]. right. split; auto. split; auto. cbn. intros [E|[]]. specialize (N7 x I). lia.
      * split; auto. split; auto. intros x [<-|[]]. auto.
    + destruct (encode_utf16le _) as [e|] eqn:EE; [|discriminate]. cbn [bind] in H. apply G3 in H. destruct H as (<- & <- & <-).
      destruct (vec_edit cls props pid (Some e) (mangle_name (names cls pid) pid 22) 0 4294967295 [] 1 [(0, o)] [] [(0, o)] HR) as (X & Y); try lia; auto.
      * right. split; auto. split; auto. split; [apply fresh_named; auto; lia|lia].
      * repeat constructor. auto.
      * repeat constructor; cbn; auto; lia.
      * repeat constructor; cbn; lia.
      * repeat constructor. auto.
  - (* EInsert *) destruct HF as (HP & HO). destruct (dict_get Z.eqb props pid) as [[| | |d [n|] next last items| | |]|] eqn:EG; try discriminate.
    + destruct ((0 <=? i) && (i <=? zlen items)); [|discriminate]. cbn [bind] in H. apply G3 in H. destruct H as (<- & <- & <-). apply dict_get_In in EG. destruct (R3 _ EG) as (((nn & N1 & N2) & N3 & N4 & N5) & N6 & N7). cbn [fst snd] in *. rewrite every_Forall in N2.
      destruct (insert_split _ items i (next, o)) as (IA & IS).
      assert (IN : forall x, In x (insert_at items i (next, o)) -> x = (next, o) \/ In x items).
      { intros x I. rewrite IA in I. rewrite IS. apply in_app_iff in I. destruct I as [I|[<-|I]]; auto; right; apply in_or_app; auto. }
      rewrite Forall_forall in *.
      destruct (vec_edit cls props pid d n next last items (next + 1) (insert_at items i (next, o)) [] [(next, o)] HR (or_introl EG)) as (X & Y); try lia; auto.
      * rewrite IA, map_app. cbn [map fst]. apply NoDup_Add with (a := next) (l := map fst items).
        { replace (map fst items) with (map fst (ztake i items) ++ map fst (zdrop i items)) by (rewrite <- map_app, <- IS; auto). apply Add_app. }
        split; auto. intros I. apply in_map_iff in I. destruct I as (y & E & I). specialize (N7 y I). lia.
      * rewrite Forall_forall. intros x I. apply IN in I. destruct I as [->|I]; [cbn; split; [lia|auto]|]. specialize (N7 x I). specialize (N5 x I). split; [lia|auto].
      * repeat constructor. auto.
      * repeat constructor. auto.
      * intros x I. apply IN in I. destruct I as [->|I]; [left; left; auto|]. right. split; auto. split; auto. cbn. intros [E|[]]. specialize (N7 x I). lia.
      * split; auto. split; auto. intros x [<-|[]]. auto.
    + apply G3 in H. destruct H as (<- & <- & <-). split; auto. split; [|repeat constructor; auto].
      assert (OTH : forall x n, In x props -> In n (children (snd x)) -> n <> element_storage (mangle_name (names cls pid) pid 22) 0).
      { intros x n I J E. destruct (ready_child _ _ _ _ HR I J) as (g & E' & G1 & G2). assert (g = GElem pid 0). { apply (gen_inj (names cls)); auto. { cbn. lia. } cbn [gen_name]. congruence. } subst g. cbn in G2. subst pid. destruct x as [pid p]. cbn [fst] in *.
        rewrite (dict_get_in Z.eqb Z.eqb_eq props pid p) in EG by auto. discriminate. }
      constructor; [| |repeat constructor; auto].
      * intros x n c I J. right. split; eauto. split; auto. cbn. intros [E|[]]. apply (OTH x n); auto. eapply kids_children; eauto.
      * intros x n c I J. split; eauto. split; auto. cbn. intros [E|[]]. apply (OTH x n); auto. eapply streams_children; eauto.
  - (* EPop *) destruct (dict_get Z.eqb props pid) as [[| | |d [n|] next last items| | |]|] eqn:EG; try discriminate. destruct (0 <=? i); [|discriminate]. cbn [bind] in H. destruct (znth items i) as [[k ok]|] eqn:EZ; [|discriminate].
    apply G3 in H. destruct H as (<- & <- & <-). apply dict_get_In in EG. destruct (R3 _ EG) as (((nn & N1 & N2) & N3 & N4 & N5) & N6 & N7). cbn [fst snd] in *. rewrite every_Forall in N2.
    destruct (znth_split _ _ _ _ EZ) as (SP & _). unfold drop_at. set (a := ztake i items) in *. set (b := zdrop (i + 1) items) in *. clearbody a b.
    assert (IN : forall x, In x (a ++ b) -> In x items) by (intros x I; rewrite SP; apply in_app_iff in I; apply in_or_app; cbn; tauto).
    assert (NK : ~ In k (map fst (a ++ b)) /\ NoDup (map fst (a ++ b))).
    { rewrite SP in N4. rewrite map_app in N4 |- *. cbn [map fst] in N4. apply NoDup_remove in N4. tauto. }
    assert (KI : In (k, ok) items) by (eapply znth_In; eauto). rewrite Forall_forall in *. pose proof (N5 _ KI) as N5k. cbn [fst] in N5k.
    destruct (vec_edit cls props pid d n next last items next (a ++ b) [k] [] HR (or_introl EG)) as (X & Y); try lia; try tauto; try (repeat constructor; auto; fail).
    + rewrite Forall_forall. intros x I. apply IN in I. specialize (N7 x I). specialize (N5 x I). split; [lia|auto].
    + intros x I. right. split; auto. split; [|auto]. cbn. intros [E|[]]. apply (proj1 NK). apply in_map_iff. eauto.
    + split; auto. split; auto. intros x [].
  - (* EAssign *) destruct HF as (HP & HO). destruct (dict_get Z.eqb props pid) as [[| | |d [n|] next last items| | |]|] eqn:EG; try discriminate. destruct (0 <=? i); [|discriminate]. cbn [bind] in H. destruct (znth items i) as [[k ok]|] eqn:EZ; [|discriminate].
    apply G3 in H. destruct H as (<- & <- & <-). apply dict_get_In in EG. destruct (R3 _ EG) as (((nn & N1 & N2) & N3 & N4 & N5) & N6 & N7). cbn [fst snd] in *. rewrite every_Forall in N2.
    rewrite (zupd_split _ _ _ _ (k, o) EZ). destruct (znth_split _ _ _ _ EZ) as (SP & _). set (a := ztake i items) in *. set (b := zdrop (i + 1) items) in *. clearbody a b.
    assert (IN : forall x, In x (a ++ b) -> In x items) by (intros x I; rewrite SP; apply in_app_iff in I; apply in_or_app; cbn; tauto).
    assert (NK : ~ In k (map fst (a ++ b))).
    { rewrite SP in N4. rewrite map_app in N4 |- *. cbn [map fst] in N4. apply NoDup_remove in N4. tauto. }
    assert (IN2 : forall x, In x (a ++ (k, o) :: b) -> x = (k, o) \/ In x (a ++ b)). { intros x I. apply in_app_iff in I. destruct I as [I|[<-|I]]; auto; right; apply in_or_app; auto. }
    assert (KI : In (k, ok) items) by (eapply znth_In; eauto). assert (N4' : NoDup (map fst (a ++ (k, o) :: b))) by (rewrite SP in N4; rewrite map_app in *; auto). rewrite Forall_forall in *. pose proof (N5 _ KI) as N5k. cbn [fst] in N5k. pose proof (N7 _ KI) as N7k. cbn [fst] in N7k.
    destruct (vec_edit cls props pid d n next last items next (a ++ (k, o) :: b) [k] [(k, o)] HR (or_introl EG)) as (X & Y); try lia; auto; try (repeat constructor; auto; fail).
    + rewrite Forall_forall. intros x I. apply IN2 in I. destruct I as [->|I]; [cbn; split; [lia|auto]|]. apply IN in I. specialize (N7 x I). specialize (N5 x I). split; [lia|auto].
    + intros x I. apply IN2 in I. destruct I as [->|I]; [left; left; auto|]. right. split; auto. cbn. split; intros [E|[]]; apply NK; apply in_map_iff; eauto.
    + split; auto. split; auto. intros x [<-|[]]. auto.
  - (* EClear *) destruct (dict_get Z.eqb props pid) as [[| | |d [n|] next last items|d [n|] next last kp ks items| |]|] eqn:EG; try discriminate.
    + apply G3 in H. destruct H as (<- & <- & <-). apply dict_get_In in EG. destruct (R3 _ EG) as (((nn & N1 & N2) & N3 & N4 & N5) & N6 & N7). cbn [fst snd] in *.
      replace (map (fun x => element_storage n (fst x)) items) with (map (element_storage n) (map fst items)) by (rewrite map_map; auto).
      destruct (vec_edit cls props pid d n next last items 0 [] (map fst items) [] HR (or_introl EG)) as (X & Y); try lia; auto; try (repeat constructor; auto; fail).
      * rewrite Forall_map. auto.
    + apply G3 in H. destruct H as (<- & <- & <-). apply dict_get_In in EG. destruct (R3 _ EG) as (((nn & size & N1 & M1 & M2 & M3 & M4 & M5 & N2) & N3 & N4 & N5) & N6 & N7). cbn [fst snd] in *.
      replace (map (fun x => element_storage n (fst (snd x))) items) with (map (element_storage n) (map (fun x => fst (snd x)) items)) by (rewrite map_map; auto).
      destruct (set_edit cls props pid d n next last kp ks items 0 [] (map (fun x => fst (snd x)) items) [] HR (or_introl EG)) as (X & Y); try lia; auto; try (repeat constructor; auto; fail).
      * rewrite Forall_map. auto.
  - (* EAdd *) destruct HF as (HP & HO & HS & HZ & HQ). destruct (dict_get Z.eqb props pid) as [[| | | |d [n|] next last kp ks items| |]|] eqn:EG; try discriminate.
    + apply dict_get_In in EG. pose proof (HQ _ _ _ _ _ _ _ EG) as ->. destruct (R3 _ EG) as (((nn & size & N1 & M1 & M2 & M3 & M4 & M5 & N2) & N3 & N4 & N5) & N6 & N7). cbn [fst snd] in *. injection M2 as <-. rewrite every_Forall in N2. rewrite Forall_forall in *.
      destruct (dict_get zlist_eqb items key) as [[k ok]|] eqn:EK; apply G3 in H; destruct H as (<- & <- & <-).
      * assert (KI : In (key, (k, ok)) items).
        { clear - EK. induction items as [|[u v] r IH]; cbn in EK; [discriminate|]. destruct (zlist_eqb u key) eqn:E; [apply zlist_eqb_spec in E; left; congruence|right; auto]. }
        assert (SP : exists a b, items = a ++ (key, (k, ok)) :: b /\ dict_set zlist_eqb items key (k, o) = a ++ (key, (k, o)) :: b).
        { clear - KI M5. induction items as [|[u v] r IH]; [destruct KI|]. cbn [map fst] in M5. inversion M5 as [|? ? Q1 Q2]; subst. cbn [dict_set]. destruct KI as [[= -> ->]|KI].
          - exists [], r. rewrite zlist_eqb_refl. auto.
          - destruct (zlist_eqb u key) eqn:E. { apply zlist_eqb_spec in E. subst u. exfalso. apply Q1. apply in_map_iff. exists (key, (k, ok)). auto. }
            destruct (IH Q2 KI) as (a & b & -> & ->). exists ((u, v) :: a), b. auto. }
        destruct SP as (a & b & SP & ->).
        assert (IN : forall x, In x (a ++ b) -> In x items) by (intros x I; rewrite SP; apply in_app_iff in I; apply in_or_app; cbn; tauto).
        assert (NK : ~ In k (map (fun x => fst (snd x)) (a ++ b))).
        { rewrite SP in N4. rewrite map_app in N4 |- *. cbn [map fst snd] in N4. apply NoDup_remove in N4. tauto. }
        assert (IN2 : forall x, In x (a ++ (key, (k, o)) :: b) -> x = (key, (k, o)) \/ In x (a ++ b)). { intros x I. apply in_app_iff in I. destruct I as [I|[<-|I]]; auto; right; apply in_or_app; auto. }
        pose proof (N5 _ KI) as N5k. cbn [fst snd] in N5k. pose proof (N7 _ KI) as N7k. cbn [fst snd] in N7k.
        assert (N4' : NoDup (map (fun x => fst (snd x)) (a ++ (key, (k, o)) :: b))) by (rewrite SP in N4; rewrite map_app in *; auto).
        assert (M5' : NoDup (map fst (a ++ (key, (k, o)) :: b))) by (rewrite SP in M5; rewrite map_app in *; auto).
        destruct (set_edit cls props pid d n next last kp (Some ksize) items next (a ++ (key, (k, o)) :: b) (if loaded then [k] else []) [(k, o)] HR (or_introl EG)) as (X & Y); try lia; auto; try (repeat constructor; auto; fail).
        { rewrite Forall_forall. intros x I. apply IN2 in I. destruct I as [->|I]; [cbn; congruence|]. apply IN in I. rewrite (M4 x I). auto. }
        { rewrite Forall_forall. intros x I. apply IN2 in I. destruct I as [->|I]; [cbn; split; [lia|auto]|]. apply IN in I. specialize (N7 x I). specialize (N5 x I). split; [lia|auto]. }
        { destruct loaded; repeat constructor; auto. }
        { intros x I. apply IN2 in I. destruct I as [->|I]; [left; left; auto|]. right. split; auto. assert (Q : k <> fst (snd x)). { intros E. apply NK. apply in_map_iff. exists x. auto. } destruct loaded; cbn; split; auto; intros [E|[]]; auto. }
        split; auto. split; [|intros x [<-|[]]; auto]. destruct loaded; exact Y.
      * assert (KN : ~ In key (map fst items)).
        { clear - EK. induction items as [|[u v] r IH]; cbn in *; auto. destruct (zlist_eqb u key) eqn:E; [discriminate|]. intros [->|I]; [rewrite zlist_eqb_refl in E; discriminate|]. apply IH; auto. }
        destruct (set_edit cls props pid d n next last kp (Some ksize) items (next + 1) (items ++ [(key, (next, o))]) [] [(next, o)] HR (or_introl EG)) as (X & Y); try lia; auto; try (repeat constructor; auto; fail).
        { rewrite map_app. apply NoDup_app_iff. split; auto. split; [repeat constructor; auto|]. intros k I [<-|[]]. apply in_map_iff in I. destruct I as (y & E & I). specialize (N7 y I). cbn [fst snd] in E. lia. }
        { rewrite map_app. apply NoDup_app_iff. split; auto. split; [repeat constructor; auto|]. intros k I [<-|[]]. auto. }
        { apply Forall_app. split; [|repeat constructor; cbn; congruence]. rewrite Forall_forall. intros x I. rewrite (M4 x I). auto. }
        { apply Forall_app. split; [|repeat constructor; cbn; auto; lia]. rewrite Forall_forall. intros x I. specialize (N7 x I). specialize (N5 x I). split; [lia|auto]. }
        { intros x I. apply in_app_iff in I. destruct I as [I|[<-|[]]]; [|left; left; auto]. right. split; auto. split; auto. cbn. intros [E|[]]. specialize (N7 x I). lia. }
        split; auto. split; auto. intros x [<-|[]]. auto.
    + destruct (encode_utf16le _) as [e|] eqn:EE; [|discriminate]. cbn [bind] in H. apply G3 in H. destruct H as (<- & <- & <-).
      destruct (set_edit cls props pid (Some e) (mangle_name (names cls pid) pid 22) 0 4294967295 (Some kpid) (Some ksize) [] 1 [(key, (0, o))] [] [(0, o)] HR) as (X & Y); try lia; auto; try (repeat constructor; auto; fail).
      * right. split; auto. split; auto. split; [apply fresh_named; auto; lia|]. split; [lia|]. split; [discriminate|]. eauto.
      * repeat constructor; cbn; congruence.
      * repeat constructor; cbn; auto; lia.
      * repeat constructor; cbn; lia.
      * intros x [<-|[]]. left. left. auto.
  - (* ERemove *) destruct (dict_get Z.eqb props pid) as [[| | | |d [n|] next last kp ks items| |]|] eqn:EG; try discriminate. destruct (dict_get zlist_eqb items key) as [[k ok]|] eqn:EK; [|discriminate].
    apply G3 in H. destruct H as (<- & <- & <-). apply dict_get_In in EG. destruct (R3 _ EG) as (((nn & size & N1 & M1 & M2 & M3 & M4 & M5 & N2) & N3 & N4 & N5) & N6 & N7). cbn [fst snd] in *. rewrite every_Forall in N2. rewrite Forall_forall in *.
    assert (KI : In (key, (k, ok)) items).
    { clear - EK. induction items as [|[u v] r IH]; cbn in EK; [discriminate|]. destruct (zlist_eqb u key) eqn:E; [apply zlist_eqb_spec in E; left; congruence|right; auto]. }
    assert (IN : forall x, In x (filter (fun x => negb (zlist_eqb (fst x) key)) items) -> In x items /\ fst x <> key).
    { intros x I. apply filter_In in I. destruct I as [I E]. split; auto. intros E'. rewrite E', zlist_eqb_refl in E. discriminate. }
    assert (FN : forall B (f : list Z * (Z * obj) -> B), NoDup (map f items) -> NoDup (map f (filter (fun x => negb (zlist_eqb (fst x) key)) items))).
    { clear. intros B f. induction items as [|x r IH]; cbn; auto. intros N. inversion N as [|? ? N1 N2]; subst. destruct (negb _); cbn; auto. constructor; auto. intros I. apply N1. apply in_map_iff in I. destruct I as (y & <- & I). apply filter_In in I. apply in_map. tauto. }
    destruct (set_edit cls props pid d n next last kp ks items next (filter (fun x => negb (zlist_eqb (fst x) key)) items) [k] [] HR (or_introl EG)) as (X & Y); try lia; auto; try (repeat constructor; auto; fail).
    + rewrite Forall_forall. intros x I. apply IN in I. destruct I as [I _]. rewrite (M4 x I). auto.
    + rewrite Forall_forall. intros x I. apply IN in I. destruct I as [I _]. specialize (N7 x I). specialize (N5 x I). split; [lia|auto].
    + repeat constructor. apply (N5 _ KI).
    + intros x I. apply IN in I. destruct I as [I NE]. right. split; auto. split; [|auto]. cbn. intros [E|[]]. apply NE.
      clear - N4 KI I E. induction items as [|y r IH]; [destruct I|]. cbn [map] in N4. apply NoDup_cons_iff in N4. destruct N4 as [Q1 Q2]. destruct KI as [KI|KI], I as [I|I]; auto.
      * rewrite <- I, KI. auto.
      * exfalso. apply Q1. rewrite KI. cbn [fst snd]. rewrite E. apply (in_map (fun x => fst (snd x))). auto.
      * exfalso. apply Q1. rewrite I. apply in_map_iff. exists (key, (k, ok)). auto.
    + split; auto. split; auto. intros x [].
Qed.

(** ** One change at a place *)
Definition edit_at (d : dir) (o : obj) (e : edit) : Prop := match o with Obj cls props => edit_fits cls props e end.

Lemma edit_obj_sync : forall e d o d' o' gone new (M M' : path -> Prop), edit_obj names e d o = Ok (d', o', (gone, new)) -> ready names o -> edit_at d o e -> sync names M d o ->
  M' [] -> (forall n c v, In (n, c) new -> In v (paths c) -> M' (n :: v)) -> (forall n v, ~ In n gone -> M (n :: v) -> M' (n :: v)) ->
  ready names o' /\ sync names M' d' o'.
Proof.
  intros e d [cls props] d' o' gone new M M' H HR HE HS M0 M1 M2. cbn [edit_obj edit_at] in *. destruct (edit_props names cls props e) as [[[props' g] nw]|] eqn:EP; [|discriminate]. cbn [bind] in H.
  destruct (each _ g d) as [d1|] eqn:E1; [|discriminate]. cbn [bind] in H. destruct (each _ nw d1) as [d2|] eqn:E2; [|discriminate]. cbn [bind] in H. injection H as <- <- <- <-.
  destruct (edit_props_ok _ _ _ _ _ _ HR HE EP) as (R' & OK & RN). split; auto. eapply edit_sync; eauto.
Qed.

(** ** Streams *)
Lemma dict_set_replace : forall (l : list (Z * prop)) pid p q (R : Z * (Z * list Z) -> Z * prop -> Prop) es, NoDup (map fst l) -> dict_get Z.eqb l pid = Some p -> Forall2 R es l ->
  (forall e, R e (pid, p) -> R e (pid, q)) -> Forall2 R es (dict_set Z.eqb l pid q).
Proof.
  induction l as [|[k v] l IH]; intros pid p q R es HN HG HF HR; cbn in HG; [discriminate|]. inversion HF; subst. cbn [dict_set]. destruct (k =? pid) eqn:E.
  - apply Z.eqb_eq in E. subst k. injection HG as ->. constructor; auto.
  - constructor; auto. eapply IH; eauto. inversion HN; auto.
Qed.
Lemma stream_sync : forall pid b d o d' o' (M : path -> Prop), edit_stream names pid b d o = Ok (d', o') -> ready names o -> 0 <= pid < 65536 -> sync names M d o ->
  (M [] \/ exists cls props data n c, o = Obj cls props /\ In (pid, PStream data n c) props) ->
  ready names o' /\ sync names M d' o'.
Proof.
  intros pid b d [cls props] d' o' M H HR HP HS HM. cbn [edit_stream] in H. pose proof HR as (R1 & R2 & R3). rewrite every_Forall in R3. rewrite Forall_forall in R2, R3.
  match type of H with bind ?x _ = _ => destruct x as [[data n]|] eqn:EX; [|discriminate] end. cbn [bind] in H. destruct (put_stream d n b) as [d1|] eqn:EP; [|discriminate]. cbn [bind] in H. injection H as <- <-. apply put_stream_ok in EP. subst d1.
  assert (B : n = mangle_name (names cls pid) pid 32 /\ exists e, encode_utf16le n = Ok e /\ nul_free n /\ data = Some (85 :: e)).
  { destruct (dict_get Z.eqb props pid) as [[|da [m|] c| | | | |]|] eqn:EG; try discriminate.
    - injection EX as <- <-. apply dict_get_In in EG. destruct (R3 _ EG) as (((nn & e & bb & F1 & F2 & F3 & F4 & F5) & F6) & _). cbn [fst snd] in *. injection F1 as ->. split; [congruence|]. exists e. auto.
    - unfold stream_data in EX. destruct (encode_utf16le _) as [e|] eqn:EE; [|discriminate]. cbn [bind] in EX. injection EX as <- <-. split; auto. exists e. split; auto. split; auto. destruct (mangled_named names cls pid 32 NB) as (e' & _ & _ & _ & N & _); [lia|auto]. }
  destruct B as (-> & e & EE & EN & ->).
  assert (PR : prop_ready names (ready names) cls pid (PStream (Some (85 :: e)) (Some (mangle_name (names cls pid) pid 32)) (Some b))).
  { split; auto. split; auto. exists (mangle_name (names cls pid) pid 32), e, b. auto 6. }
  assert (R' : ready names (Obj cls (dict_set Z.eqb props pid (PStream (Some (85 :: e)) (Some (mangle_name (names cls pid) pid 32)) (Some b))))).
  { cbn [ready]. split; [apply (dict_set_keys Z.eqb Z.eqb_eq); auto|]. rewrite every_Forall, !Forall_forall. split; intros x I; apply in_dict_set in I; auto; destruct I as [->|[I _]]; auto. }
  split; auto. apply sync_inv in HS. destruct HS as (HC & HV & HT & HK).
  assert (OT : forall m, m <> mangle_name (names cls pid) pid 32 -> dget (dput d (mangle_name (names cls pid) pid 32) (File b)) m = dget d m).
  { intros m Hm. rewrite dget_put. destruct (zlist_eqb _ m) eqn:Z; auto. apply zlist_eqb_spec in Z. congruence. }
  assert (OTH : forall x m, In x props -> fst x <> pid -> In m (children (snd x)) -> m <> mangle_name (names cls pid) pid 32).
  { intros x m I F J E. destruct (ready_child _ _ _ _ HR I J) as (g & E' & G1 & G2). assert (g = GRef pid). { apply (gen_inj (names cls)); auto. { cbn. lia. } cbn [gen_name]. congruence. } subst g. cbn in G2. auto. }
  set (p' := PStream (Some (85 :: e)) (Some (mangle_name (names cls pid) pid 32)) (Some b)) in *.
  pose proof (ready_distinct _ _ _ R') as HD'.
  assert (HI' : In (pid, p') (dict_set Z.eqb props pid p')). { clear. induction props as [|[k v] r IH]; cbn; auto. destruct (k =? pid) eqn:E; [apply Z.eqb_eq in E; subst; left; auto|right; auto]. }
  constructor.
  - destruct d; auto.
  - intros N. destruct HM as [HM|(cls0 & props0 & data & m & c & [= <- <-] & HI)]; [contradiction|]. destruct (HV N) as (B1 & B2). split.
    + rewrite OT. 2:{ intros E. apply (distinct_props _ _ (mangle_name (names cls pid) pid 32) HD' HI'); auto. left. left. auto. }
      pose proof (dict_get_in Z.eqb Z.eqb_eq _ _ _ R1 HI) as GI.
      destruct (dget d (codes "properties")) as [[bb|]|]; auto. 2:{ subst props. destruct HI. }
      destruct B1 as (v & es & E1 & E2). exists v, es. split; auto. eapply dict_set_replace; eauto. cbn [fst snd]. intros en (X1 & X2 & X3). split; auto. split; auto. cbn [stored data_of] in *.
      destruct (R3 _ HI) as (((nn & e' & bb' & F1 & F2 & F3 & F4 & F5) & F6) & _). cbn [fst snd] in *. rewrite F4 in X3. subst m. injection F6 as F6. assert (e' = e) by congruence. change (Some (85 :: e) = Some (snd (snd en))). congruence.
    + rewrite Forall_forall in *. intros x I. pose proof I as I2. apply in_dict_set in I; auto. destruct I as [->|[I F]]; [exact Logic.I|]. apply (listed_same _ d); auto. intros m' J. apply OT. intros ->. eapply (distinct_index _ (pid, p') x); [exact HD'|exact HI'|exact I2|left; auto|exact J].
  - intros x m b' I J. apply in_dict_set in I; auto. destruct I as [->|[I F]].
    + cbn in J. destruct J as [[= <- <-]|[]]. apply get_put_same.
    + rewrite OT; eauto. apply (OTH x); auto. eapply streams_children; eauto.
  - intros x m c I J. apply in_dict_set in I; auto. destruct I as [->|[I F]]; [destruct J|]. rewrite OT; eauto. apply (OTH x); auto. eapply kids_children; eauto.
Qed.


(** ** Saving leaves the objects as they are *)
Lemma put_kid_same : forall props x n c, distinct props -> In x props -> kid props n = Some c -> put_kid n c (snd x) = snd x.
Proof.
  intros props x n c HD I HK.
  assert (G : forall m o, In (m, o) (kids (snd x)) -> (if zlist_eqb m n then c else o) = o).
  { intros m o J. destruct (zlist_eqb m n) eqn:Z; auto. apply zlist_eqb_spec in Z. subst m. rewrite (kid_some props x n o) in HK; auto. congruence. }
  destruct (snd x) as [|da [k|] co|da [k|] [o|]|da [k|] ? ? items|da [k|] ? ? ? ? items| |]; auto; cbn [kids put_kid] in *.
  - rewrite (G k o); auto. left; auto.
  - f_equal. rewrite <- map_id. apply map_ext_in. intros [j o] J. cbn [fst snd]. rewrite (G _ o); auto. apply in_map_iff. exists (j, o). auto.
  - f_equal. rewrite <- map_id. apply map_ext_in. intros [u [j o]] J. cbn [fst snd]. rewrite (G _ o); auto. apply in_map_iff. exists (u, (j, o)). auto.
Qed.
Lemma at_path_same : forall A (k : dir -> obj -> result (dir * obj * A)) w d o d' o' a, (forall s c s' c', k s c = Ok (s', c', a) -> c' = c) -> ready names o ->
  at_path k w d o = Ok (d', o', a) -> o' = o.
Proof.
  intros A k. induction w as [|n r IH]; intros d o d' o' a HK HR H; cbn in *; [eauto|]. destruct o as [cls props]. destruct (kid props n) as [c|] eqn:EK; [|discriminate]. destruct (dget d n) as [[|s]|]; try discriminate.
  destruct (at_path k r s c) as [[[s' c'] a']|] eqn:E; [|discriminate]. cbn [bind] in H. injection H as <- <- <-. destruct (kid_in _ _ _ EK) as (x0 & I0 & J0).
  apply IH in E; auto. 2:{ eapply form_kids; [eapply ready_form; eauto|exact J0]. } subst c'. f_equal. rewrite <- map_id. apply map_ext_in. intros x I. rewrite (put_kid_same props x n c); auto. { destruct x; auto. } eapply ready_distinct; eauto.
Qed.
Lemma paths_resolve : forall w o, ready names o -> In w (paths o) -> resolves w o = true.
Proof.
  induction w as [|n r IH]; intros [cls props] HR I; cbn [resolves]; auto. apply paths_cons in I. destruct I as (x & c & I & J & K). rewrite (kid_some props x n c); auto. { apply IH; auto. eapply form_kids; [eapply ready_form; eauto|exact J]. } eapply ready_distinct; eauto.
Qed.

Lemma save_each : forall l d o d' o', ready names o -> sync names (fun w => In w l) d o ->
  each (fun w st => if resolves w (snd st) then
        do (d', o', u) <- at_path (fun d o => do d' <- save_here names d o ;; Ok (d', o, tt)) w (fst st) (snd st) ;; Ok (d', o')
      else Ok st) l (d, o) = Ok (d', o') ->
  o' = o /\ sync names (fun _ => False) d' o.
Proof.
  induction l as [|w l IH]; intros d o d' o' HR HS H; cbn [each] in H. { injection H as <- <-. split; auto. }
  cbn [fst snd] in H. destruct (resolves w o) eqn:ER.
  - destruct (at_path _ w d o) as [[[d1 o1] u]|] eqn:EA; [|discriminate]. cbn [bind] in H.
    assert (o1 = o). { eapply at_path_same; [|exact HR|exact EA]. intros s c s' c' E. cbn in E. destruct (save_here names s c); [|discriminate]. cbn in E. congruence. } subst o1.
    apply IH in H; auto. apply (at_path_sync names _ _ w (fun v => In v (w :: l)) (fun v => In v l) d o d1 o u EA HR HS).
    + intros s c s' c' _ E RC SC. destruct (save_here names s c) as [s1|] eqn:E1; [|discriminate]. cbn in E. injection E as <- <-. split; auto. destruct c as [cls props]. eapply save_sync; eauto. intros v Hv [E|I]; auto. exfalso. apply Hv. apply (app_inv_head w). rewrite app_nil_r. auto.
    + intros v Hv [E|I]; auto. exfalso. apply (Hv []). rewrite app_nil_r. auto.
  - cbn [bind] in H. apply IH in H; auto. eapply sync_weaken; [exact HS|]. intros v Hv [E|I]; auto. subst v. rewrite paths_resolve in ER; auto. discriminate.
Qed.

(** ** Opening *)
Lemma all_of_inv : forall A B (f : A -> result B) l r y, all_of f l = Ok r -> In y r -> exists x, In x l /\ f x = Ok y.
Proof.
  intros A B f l r y H I. apply all_of_Forall2 in H. induction H as [|a b l r E F IH]; [destruct I|]. destruct I as [<-|I]; [exists a; split; [left|]; auto|]. destruct (IH I) as (x & X1 & X2). exists x. split; [right|]; auto.
Qed.
Lemma read_sub_inv : forall rec d n o, read_sub rec d n = Ok o -> exists s, dget d n = Some (Sub s) /\ rec s = Ok o.
Proof. intros rec d n o H. unfold read_sub in H. destruct (dget d n) as [[|s]|]; try discriminate. eauto. Qed.
Lemma read_stream_inv : forall d n b, read_stream d n = Ok b -> dget d n = Some (File b).
Proof. intros d n b H. unfold read_stream in H. destruct (dget d n) as [[|s]|]; try discriminate. congruence. Qed.
Lemma read_prop_inv : forall rec d cls pid f e p, read_prop names rec d cls pid f e = Ok p ->
  prop_format p = f /\ stored names cls pid p e /\ listed p d /\
  (forall n b, In (n, b) (streams p) -> dget d n = Some (File b)) /\
  (forall n c, In (n, c) (kids p) -> exists s, dget d n = Some (Sub s) /\ rec s = Ok c).
Proof.
  intros rec d cls pid f e p H. unfold read_prop in H.
  destruct (f =? 66) eqn:F1.
  { apply Z.eqb_eq in F1. destruct (match e with 85 :: _ => true | _ => false end); [|discriminate]. cbn [bind] in H. apply Ok_inj in H. subst p. cbn [prop_format stored data_of listed kids streams]. split; auto. split; auto. split; auto. split; [|intros n c []].
    intros n b J. destruct (dget d (decode_utf16le (zdrop 1 e))) as [[bb|]|] eqn:E; cbn in J; try (destruct J; fail). destruct J as [[= <- <-]|[]]. auto. }
  destruct (f =? 34) eqn:F2.
  { apply Z.eqb_eq in F2. cbv zeta in H. destruct (dget d (decode_utf16le e)) as [i|] eqn:E.
    - destruct (read_sub rec d (decode_utf16le e)) as [o|] eqn:RS; [|discriminate]. cbn [bind] in H. apply Ok_inj in H. subst p. cbn [prop_format stored data_of listed kids streams]. split; auto. split; auto. split; auto. split; [intros n b []|]. intros n c [[= <- <-]|[]]. apply read_sub_inv. auto.
    - apply Ok_inj in H. subst p. cbn. split; auto. split; auto. split; auto. split; intros ? ? []. }
  destruct (f =? 50) eqn:F3.
  { apply Z.eqb_eq in F3. cbv zeta in H. match type of H with bind ?x _ = _ => destruct x as [e'|] eqn:EE; [|discriminate] end. cbn [bind] in H. destruct (read_stream d _) as [b|] eqn:ES; [|discriminate]. cbn [bind] in H. destruct (vec_read b) as [[[next last] keys]|] eqn:EV; [|discriminate]. cbn [bind] in H.
    destruct (all_of _ keys) as [items|] eqn:EA; [|discriminate]. cbn [bind] in H. apply Ok_inj in H. subst p. cbn [prop_format stored listed kids streams]. cbv zeta. split; auto.
    split. { split; auto. exists e'. auto. }
    split. { exists b. split; [apply read_stream_inv; auto|]. rewrite EV. repeat f_equal. apply all_of_Forall2 in EA. clear - EA. induction EA as [|k x l r E F IH]; auto. cbn [map]. f_equal; auto. destruct (read_sub _ _ _); [|discriminate]. cbn in E. apply Ok_inj in E. subst x. auto. }
    split; [intros n bb []|]. intros n c J. apply in_map_iff in J. destruct J as (x & [= <- <-] & J). destruct (all_of_inv _ _ _ _ _ _ EA J) as (k & _ & E). destruct (read_sub _ _ _) as [o|] eqn:RS; [|discriminate]. cbn in E. apply Ok_inj in E. subst x. apply read_sub_inv. auto. }
  destruct (f =? 58) eqn:F4.
  { apply Z.eqb_eq in F4. cbv zeta in H. destruct (read_stream d _) as [b|] eqn:ES; [|discriminate]. cbn [bind] in H. destruct (set_read b) as [i|] eqn:EV; [|discriminate]. cbn [bind] in H.
    destruct (all_of _ (si_refs i)) as [items|] eqn:EA; [|discriminate]. cbn [bind] in H. apply Ok_inj in H. subst p. cbn [prop_format stored data_of listed kids streams]. split; auto. split; auto.
    split. { exists b. split; [apply read_stream_inv; auto|]. rewrite EV. f_equal. destruct i as [nx la pp sz refs]. cbn [si_next si_last si_pid si_size si_refs] in *. f_equal. apply all_of_Forall2 in EA. clear - EA. induction EA as [|k x l r E F IH]; auto. cbn [map]. f_equal; auto. destruct (read_sub _ _ _); [|discriminate]. cbn in E. apply Ok_inj in E. subst x. destruct k; auto. }
    split; [intros n bb []|]. intros n c J. apply in_map_iff in J. destruct J as (x & [= <- <-] & J). destruct (all_of_inv _ _ _ _ _ _ EA J) as (k & _ & E). destruct (read_sub _ _ _) as [o|] eqn:RS; [|discriminate]. cbn in E. apply Ok_inj in E. subst x. apply read_sub_inv. auto. }
  destruct ((f =? 2) || (f =? 3)) eqn:F5.
  { destruct (weak_decode e) as [[[[i k] s] r]|] eqn:EW; [|discriminate]. cbn [bind] in H. apply Ok_inj in H. subst p. cbn. split; auto. split; auto. split; auto. split; intros ? ? []. }
  destruct ((f =? 18) || (f =? 26)) eqn:F6.
  { cbv zeta in H. destruct (read_stream d _) as [b|] eqn:ES; [|discriminate]. cbn [bind] in H. destruct (weaks_read b) as [[[[i k] s] r]|] eqn:EV; [|discriminate]. cbn [bind] in H. apply Ok_inj in H. subst p. cbn [prop_format stored data_of listed kids streams]. split; auto. split; auto.
    split; [exists b; split; auto; apply read_stream_inv; auto|]. split; intros ? ? []. }
  apply Ok_inj in H. subst p. cbn. split; auto. split; auto. split; auto. split; intros ? ? [].
Qed.
Lemma open_sync : forall fuel d o (M : path -> Prop), read_obj names fuel d = Ok o -> sync names M d o.
Proof.
  induction fuel as [|fuel IH]; intros d o M H; [discriminate|]. cbn [read_obj] in H. destruct d as [cls its]. destruct (dget (Dir cls its) (codes "properties")) as [[b|]|] eqn:GP; try discriminate.
  - destruct (read_properties b) as [[v es]|] eqn:ER; [|discriminate]. cbn [bind] in H. destruct (all_of _ es) as [ps|] eqn:EA; [|discriminate]. cbn [bind] in H. apply Ok_inj in H. subst o.
    assert (G : Forall2 (fun e x => fst e = fst x /\ read_prop names (read_obj names fuel) (Dir cls its) cls (fst x) (fst (snd e)) (snd (snd e)) = Ok (snd x)) es ps).
    { apply all_of_Forall2 in EA. clear - EA. induction EA as [|e x l r E F IH]; constructor; auto. destruct (read_prop _ _ _ _ _ _ _) as [p|] eqn:RP; [|discriminate]. cbn in E. apply Ok_inj in E. subst x. auto. }
    assert (G2 : forall x, In x ps -> exists e : Z * (Z * list Z), read_prop names (read_obj names fuel) (Dir cls its) cls (fst x) (fst (snd e)) (snd (snd e)) = Ok (snd x)).
    { intros x I. clear - G I. induction G as [|e y l r (_ & E) F IH]; [destruct I|]. destruct I as [<-|I]; eauto. }
    constructor; auto.
    + intros _. split.
      * rewrite GP. exists v, es. split; auto. clear - G. induction G as [|e y l r (E1 & E2) F IH]; constructor; auto. apply read_prop_inv in E2. destruct E2 as (X1 & X2 & _). auto.
      * rewrite Forall_forall. intros x I. destruct (G2 x I) as (e & E). apply read_prop_inv in E. tauto.
    + intros x n bb I J. destruct (G2 x I) as (e & E). apply read_prop_inv in E. destruct E as (_ & _ & _ & X & _). auto.
    + intros x n c I J. destruct (G2 x I) as (e & E). apply read_prop_inv in E. destruct E as (_ & _ & _ & _ & X). destruct (X n c J) as (s & S1 & S2). exists s. split; auto.
  - apply Ok_inj in H. subst o. constructor; auto.
    + intros _. split; [rewrite GP; auto|constructor].
    + intros x n b [].
    + intros x n c [].
Qed.
End Change.
