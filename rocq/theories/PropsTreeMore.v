(** C63: objects built by the library can be saved; C64: copies. *)
From Verif Require Import Base BaseFacts Codec CodecFacts Text TextFacts TypesModel TypesFacts ObjModel PropsObj TreeModel PropsTree.
From Coq Require Import ZArith List Bool Lia String Arith.
Import ListNotations.
Open Scope Z_scope.

(** ** Specification: an object as the library's setters build it *)

(** The names are those generated from the property names, and local keys are not used twice. *)
Definition prop_made (names : Z -> Z -> list Z) (rec : obj -> Prop) (cls pid : Z) (p : prop) : Prop :=
  prop_form rec p /\
  match p with
  | PStream _ name _ | PRef _ name _ => name = Some (mangle_name (names cls pid) pid 32)
  | PVec _ name _ _ items => name = Some (mangle_name (names cls pid) pid 22) /\ NoDup (map fst items) /\ Forall (fun x => 0 <= fst x) items
  | PSet _ name _ _ _ _ items => name = Some (mangle_name (names cls pid) pid 22) /\ NoDup (map (fun x => fst (snd x)) items) /\ Forall (fun x => 0 <= fst (snd x)) items
  | PWeaks _ _ name _ _ _ _ => name = Some (mangle_name (names cls pid) pid 22)
  | _ => True
  end.
Fixpoint made (names : Z -> Z -> list Z) (o : obj) : Prop :=
  match o with Obj cls props =>
    NoDup (map fst props) /\ Forall (fun x => 0 <= fst x < 65536) props /\
    every (fun x => prop_made names (made names) cls (fst x) (snd x)) props
  end.

(** ** The names of such an object are different *)
Definition up (c : Z) : list Z := [if (97 <=? c) && (c <=? 122) then c - 32 else c].
Lemma gen_inj : forall names g1 g2, gen_ok g1 -> gen_ok g2 -> gen_name names g1 = gen_name names g2 -> g1 = g2.
Proof.
  intros names g1 g2 H1 H2 H. apply (C36_all_distinct_partial up names); auto. { intros c _. reflexivity. } congruence.
Qed.
Lemma gen_last : forall names g, gen_ok g -> last (gen_name names g) 0 <> 115.
Proof.
  intros names g H.
  assert (L : forall (a b : list Z) x, last (a ++ x :: b) 0 = last (x :: b) 0) by (intros; apply last_suffix).
  destruct g as [p|p|p k]; cbn [gen_name gen_ok] in *.
  - unfold mangle_name. cbn [app]. rewrite L. pose proof (hex_str_lower p H) as F. cbn [last]. assert (Hne : hex_str p <> []).
    { unfold hex_str. cbn [hex_go]. destruct (p <? 16); [discriminate|]. destruct (hex_go _ _); discriminate. }
    destruct (hex_str p) as [|c l] eqn:E; [congruence|]. destruct (exists_last Hne) as (a & x & Ea). rewrite Ea in F |- *. rewrite last_last. rewrite Forall_app in F. destruct F as [_ F]. inversion F as [|? ? X]; subst. unfold is_hex_lower in X. lia.
  - unfold index_stream. change (codes " index") with [32; 105; 110; 100; 101; 120]. rewrite L. cbn. lia.
  - unfold element_storage. cbn [app]. rewrite L. change (123 :: hex_str k ++ [125]) with ((123 :: hex_str k) ++ [125]). rewrite last_last. lia.
Qed.

Definition child_gens (pid : Z) (p : prop) : list gen :=
  match p with
  | PStream _ _ _ | PRef _ _ _ => [GRef pid]
  | PVec _ _ _ _ items => map (fun x => GElem pid (fst x)) items
  | PSet _ _ _ _ _ _ items => map (fun x => GElem pid (fst (snd x))) items
  | _ => []
  end.
Definition index_gens (pid : Z) (p : prop) : list gen :=
  match p with PVec _ _ _ _ _ | PSet _ _ _ _ _ _ _ | PWeaks _ _ _ _ _ _ _ => [GIndex pid] | _ => [] end.

Lemma children_gens : forall names rec cls pid p, prop_made names rec cls pid p -> children p = map (gen_name (names cls)) (child_gens pid p).
Proof.
  intros names rec cls pid p (F & H). destruct p; cbn [children child_gens map gen_name] in *; auto; try (subst; auto; fail).
  - destruct H as (-> & _). rewrite map_map. auto.
  - destruct H as (-> & _). rewrite map_map. auto.
Qed.
Lemma indexes_gens : forall names rec cls pid p, prop_made names rec cls pid p -> indexes p = map (gen_name (names cls)) (index_gens pid p).
Proof.
  intros names rec cls pid p (F & H). destruct p; cbn [indexes index_gens map gen_name] in *; auto; try (subst; auto; fail); destruct H as (-> & _); auto.
Qed.
Lemma gens_ok : forall names rec cls pid p, 0 <= pid -> prop_made names rec cls pid p -> Forall gen_ok (child_gens pid p) /\ Forall gen_ok (index_gens pid p).
Proof.
  intros names rec cls pid p Hp (F & H). split; destruct p; cbn [child_gens index_gens]; repeat constructor; auto.
  - destruct H as (_ & _ & H). rewrite Forall_forall in *. intros g I. apply in_map_iff in I. destruct I as (x & <- & I). cbn. auto.
  - destruct H as (_ & _ & H). rewrite Forall_forall in *. intros g I. apply in_map_iff in I. destruct I as (x & <- & I). cbn. auto.
Qed.
Definition gpid (g : gen) : Z := match g with GRef p | GIndex p | GElem p _ => p end.
Lemma gens_nodup : forall names rec cls props, NoDup (map fst props) -> Forall (fun x => prop_made names rec cls (fst x) (snd x)) props ->
  NoDup (flat_map (fun x => child_gens (fst x) (snd x)) props) /\ NoDup (flat_map (fun x => index_gens (fst x) (snd x)) props) /\
  (forall g, In g (flat_map (fun x => child_gens (fst x) (snd x)) props) -> ~ In g (flat_map (fun x => index_gens (fst x) (snd x)) props)).
Proof.
  intros names rec cls props HN HF.
  assert (PC : forall pid p g, In g (child_gens pid p) -> gpid g = pid).
  { intros pid p g I. destruct p; cbn [child_gens] in I; try (destruct I as [<-|[]]; auto; fail); try (destruct I; fail); apply in_map_iff in I; destruct I as (x & <- & _); auto. }
  assert (PI : forall pid p g, In g (index_gens pid p) -> gpid g = pid /\ g = GIndex pid).
  { intros pid p g I. destruct p; cbn [index_gens] in I; try (destruct I; fail); destruct I as [<-|[]]; auto. }
  split; [|split].
  - induction props as [|[pid p] r IH]; [constructor|]. cbn [map fst flat_map snd] in *. inversion HN; subst. inversion HF as [|? ? Hp Hr]; subst. apply NoDup_app_iff. split; [|split; [auto|]].
    + cbn [fst snd] in Hp. destruct Hp as (F & Hp). destruct p; cbn [child_gens]; repeat constructor; auto.
      * destruct Hp as (_ & N & _). clear - N. induction items as [|[k o] t IHt]; cbn [map fst] in *; constructor; inversion N; subst; auto. intros I. apply H1. apply in_map_iff in I. destruct I as (y & [= E] & I). apply in_map_iff. eauto.
      * destruct Hp as (_ & N & _). clear - N. induction items as [|[u [k o]] t IHt]; cbn [map fst snd] in *; constructor; inversion N; subst; auto. intros I. apply H1. apply in_map_iff in I. destruct I as (y & [= E] & I). apply in_map_iff. eauto.
    + intros g I J. apply PC in I. apply in_flat_map in J. destruct J as ([q p'] & K & J). apply PC in J. cbn [fst] in J. apply H1. apply in_map_iff. exists (q, p'). split; auto. cbn. congruence.
  - clear HF. induction props as [|[pid p] r IH]; [constructor|]. cbn [map fst flat_map snd] in *. inversion HN; subst. apply NoDup_app_iff. split; [|split; [auto|]].
    + destruct p; cbn [index_gens]; repeat constructor; auto.
    + intros g I J. apply PI in I. apply in_flat_map in J. destruct J as ([q p'] & K & J). apply PI in J. cbn [fst] in J. apply H1. apply in_map_iff. exists (q, p'). split; auto. cbn. destruct I, J. congruence.
  - intros g I J. apply in_flat_map in I. destruct I as ([q p'] & _ & I). apply in_flat_map in J. destruct J as ([q2 p2] & _ & J). apply PI in J. destruct J as (_ & ->). cbn [fst snd] in I.
    destruct p'; cbn [child_gens] in I; try (destruct I as [[=]|[]]; fail); try (destruct I; fail); apply in_map_iff in I; destruct I as (x & [=] & _).
Qed.
Lemma NoDup_map_inj : forall A B (f : A -> B) (P : A -> Prop) l, Forall P l -> (forall x y, P x -> P y -> f x = f y -> x = y) -> NoDup l -> NoDup (map f l).
Proof.
  intros A B f P l HP HI HN. induction HN as [|x l Hx HN IH]; cbn; constructor; inversion HP; subst; auto. intros I. apply in_map_iff in I. destruct I as (y & E & I). apply HI in E; auto; [congruence|]. rewrite Forall_forall in H2. auto.
Qed.

Lemma flat_map_map_in : forall A B C (f : A -> list B) (g : B -> C) (h : A -> list C) l, (forall x, In x l -> h x = map g (f x)) -> flat_map h l = map g (flat_map f l).
Proof. intros A B C f g h. induction l as [|x l IH]; intros H; cbn; auto. rewrite map_app, <- IH by (intros; apply H; right; auto). rewrite H by (left; auto). auto. Qed.

Lemma prop_form_mono : forall (P Q : obj -> Prop) p, below (fun o => P o -> Q o) p -> prop_form P p -> prop_form Q p.
Proof.
  intros P Q p HB HF. destruct p as [f da|da nm c|da nm o|da nm next last items|da nm next last kp ks items|f da i k s r|f da nm i k s r]; cbn [prop_form below] in *; auto.
  - destruct HF as (n & H1 & H2). exists n. split; auto. destruct o; auto.
  - destruct HF as (n & H1 & H2). exists n. split; auto. rewrite every_Forall in *. rewrite Forall_forall in *. auto.
  - destruct HF as (n & size & H1 & H2 & H3 & H4 & H5 & H6 & H7). exists n, size. split; auto. split; auto. split; auto. split; auto. split; auto. split; auto. rewrite every_Forall in *. rewrite Forall_forall in *. auto.
Qed.

(** What the library builds is well-formed, so [C63_roundtrip] applies to it without a condition on names. *)
Theorem C63_library : forall names o, made names o -> well_formed o.
Proof.
  intros names o. induction o as [cls props IH] using obj_induct. cbn [made well_formed]. intros (HN & HP & HF). rewrite every_Forall in *. rewrite Forall_forall in HP, IH.
  assert (HF' := HF). rewrite Forall_forall in HF'. split; auto. split.
  - destruct (gens_nodup names (made names) cls props HN HF) as (N1 & N2 & N3).
    rewrite (flat_map_map_in _ _ _ (fun x => child_gens (fst x) (snd x)) (gen_name (names cls)) (fun x => children (snd x))) by (intros x I; eapply children_gens; apply (HF' x I)).
    rewrite (flat_map_map_in _ _ _ (fun x => index_gens (fst x) (snd x)) (gen_name (names cls)) (fun x => indexes (snd x))) by (intros x I; eapply indexes_gens; apply (HF' x I)).
    rewrite <- map_app. set (gs := flat_map _ props ++ flat_map _ props).
    assert (GO : Forall gen_ok gs).
    { unfold gs. apply Forall_app. split; rewrite Forall_forall; intros g I; apply in_flat_map in I; destruct I as (x & I & J); destruct (gens_ok names (made names) cls (fst x) (snd x)) as [G1 G2]; try (apply HP in I; lia); try (apply (HF' x I));
      rewrite Forall_forall in G1, G2; auto. }
    constructor.
    + intros I. apply in_map_iff in I. destruct I as (g & E & I). rewrite Forall_forall in GO. apply (gen_last (names cls) g); auto. rewrite E. reflexivity.
    + eapply NoDup_map_inj; [exact GO| |]. { intros x y. apply gen_inj. } unfold gs. apply NoDup_app_iff. auto.
  - rewrite Forall_forall. intros x I. specialize (HF' x I). destruct HF' as (F & _). eapply prop_form_mono; [|exact F]. apply (IH x I).
Qed.

(** ** Saving succeeds *)
Definition bmp (c : Z) : Prop := (0 < c < 55296 /\ c <> 47) \/ 57344 <= c < 65536.
(** every number the formats store in 8, 16 or 32 bits fits *)
Definition prop_fits (rec : obj -> Prop) (p : prop) : Prop :=
  match p with
  | PData _ d => exists b, d = Some b /\ zlen b < 65536
  | PRef _ _ o => match o with Some o => rec o | None => True end
  | PVec _ _ next last items => 0 <= next < 2 ^ 32 /\ 0 <= last < 2 ^ 32 /\ zlen items < 2 ^ 32 /\ Forall (fun x => fst x < 2 ^ 32) items /\ every (fun x => rec (snd x)) items
  | PSet _ _ next last kpid _ items => 0 <= next < 2 ^ 32 /\ 0 <= last < 2 ^ 32 /\ zlen items < 2 ^ 32 /\ Forall (fun x => fst (snd x) < 2 ^ 32) items /\
      (exists k, kpid = Some k /\ 0 <= k < 65536) /\ every (fun x => rec (snd (snd x))) items
  | PWeaks _ _ _ index kpid _ refs => (exists i k, index = Some i /\ kpid = Some k /\ 0 <= i < 65536 /\ 0 <= k < 65536) /\ zlen refs < 2 ^ 32
  | _ => True
  end.
Fixpoint fits (o : obj) : Prop :=
  match o with Obj cls props => zlen props < 65536 /\ every (fun x => prop_fits fits (snd x)) props end.

Lemma bmp_enc : forall s, Forall bmp s -> exists e, encode_utf16 s = Ok e /\ zlen e = 2 * zlen s.
Proof.
  intros s H. exists (enc16 s). split.
  - apply encode_utf16_text. unfold text. rewrite Forall_forall in *. intros c I. specialize (H c I). unfold bmp, scalar in *. lia.
  - unfold enc16. induction H as [|c s H1 H2 IH]; auto. cbn [flat_map]. rewrite zlen_app, IH, zlen_cons. unfold utf16_units. replace (c <? 65536) with true by (unfold bmp in H1; lia). cbn [flat_map app]. change (zlen (le_bytes 2 c ++ [])) with 2. lia.
Qed.
Lemma bmp_le : forall s, Forall bmp s -> exists e, encode_utf16le s = Ok e /\ zlen e = 2 * zlen s + 2.
Proof.
  intros s H. destruct (bmp_enc s H) as (e & E & L). exists (e ++ [0; 0]). unfold encode_utf16le. rewrite E. split; auto. rewrite zlen_app, L. reflexivity.
Qed.
Lemma entry_name_ok : forall n, Forall bmp n -> zlen n <= 31 -> entry_name n = Ok tt.
Proof.
  intros n H L. unfold entry_name. replace (negb (existsb (Z.eqb 47) n)) with true.
  - destruct (bmp_enc n H) as (e & -> & Le). cbn [bind]. replace (zlen e <=? 64) with true by lia. auto.
  - symmetry. apply negb_true_iff. apply not_true_is_false. intros C. apply existsb_exists in C. destruct C as (c & I & E). rewrite Forall_forall in H. specialize (H c I). unfold bmp in H. lia.
Qed.
Lemma squeeze_bmp : forall name size, Forall bmp name -> Forall bmp (squeeze_name name size).
Proof.
  intros name size H. unfold squeeze_name. destruct (zlen name <=? size) eqn:E; auto. rewrite Forall_forall in *. intros c I. apply in_map_iff in I. destruct I as (i & <- & I).
  unfold zseq in I. apply in_map_iff in I. destruct I as (j & <- & I). apply in_seq in I.
  assert (N : forall m, (m < List.length name)%nat -> bmp (nth m name 0)) by (intros m Hm; apply H, nth_In; auto). unfold zlen in *.
  destruct (0 + Z.of_nat j <? size / 2) eqn:E1; [apply N; lia|]. destruct (0 + Z.of_nat j =? size / 2) eqn:E2; [unfold bmp; lia|]. apply N. lia.
Qed.
Lemma hex_bmp : forall n, 0 <= n -> Forall bmp (hex_str n).
Proof. intros n H. eapply Forall_impl; [|apply hex_str_lower; auto]. intros c Hc. unfold is_hex_lower, bmp in *. lia. Qed.
Lemma mangle_bmp : forall name pid size, 0 <= pid -> Forall bmp name -> Forall bmp (mangle_name name pid size).
Proof.
  intros name pid size Hp H. unfold mangle_name. apply Forall_app. split; [apply squeeze_bmp; auto|]. constructor; [unfold bmp; lia|]. apply hex_bmp. auto.
Qed.
Lemma gen_entry : forall names g, (forall p, Forall bmp (names p)) -> gen_ok g -> 0 <= gpid g < 65536 -> match g with GElem _ k => k < 2 ^ 32 | _ => True end ->
  entry_name (gen_name names g) = Ok tt.
Proof.
  intros names g HN HO HP HK. destruct g as [p|p|p k]; cbn [gen_name gpid gen_ok] in *.
  - apply entry_name_ok; [apply mangle_bmp; auto; lia|]. apply (C36_fits_partial (names p) p 0); lia.
  - apply entry_name_ok; [|apply (C36_fits_partial (names p) p 0); lia]. unfold index_stream. apply Forall_app. split; [apply mangle_bmp; auto; lia|]. change (codes " index") with [32; 105; 110; 100; 101; 120]. repeat (apply Forall_cons; [unfold bmp; lia|]). apply Forall_nil.
  - apply entry_name_ok; [|apply (C36_fits_partial (names p) p k); lia]. unfold element_storage. apply Forall_app. split; [apply mangle_bmp; auto; lia|]. constructor; [unfold bmp; lia|]. apply Forall_app. split; [apply hex_bmp; lia|]. repeat constructor; unfold bmp; lia.
Qed.

Lemma each_total : forall A (f : A -> dir -> result dir) (own : A -> list (list Z)) l,
  (forall x d, In x l -> (forall n, In n (own x) -> dget d n = None) -> exists d', f x d = Ok d' /\ frame (own x) d d') ->
  forall d, NoDup (flat_map own l) -> (forall n, In n (flat_map own l) -> dget d n = None) ->
  exists d', each f l d = Ok d' /\ frame (flat_map own l) d d'.
Proof.
  intros A f own. induction l as [|x l IH]; intros Hf d HN HD.
  - exists d. split; auto. split; auto.
  - cbn [flat_map] in HN. apply NoDup_app_iff in HN. destruct HN as (N1 & N2 & N3). destruct (Hf x d (or_introl eq_refl)) as (d1 & E1 & C1 & F1). { intros n I. apply HD. apply in_or_app. auto. }
    destruct (IH (fun y e I => Hf y e (or_intror I)) d1 N2) as (d2 & E2 & C2 & F2).
    { intros n I. rewrite F1 by (intros J; exact (N3 n J I)). apply HD. apply in_or_app. auto. }
    exists d2. split; [cbn; rewrite E1; auto|]. split; [congruence|]. intros m Hm. cbn [flat_map] in Hm. rewrite F2, F1; auto; intros I; apply Hm; apply in_or_app; auto.
Qed.
Lemma in_sub_total : forall d n (k : dir -> result dir), dget d n = None -> entry_name n = Ok tt -> (exists s', k empty_dir = Ok s') -> exists d', in_sub d n k = Ok d' /\ frame [n] d d'.
Proof. intros d n k H1 H2 (s' & H3). exists (dput d n (Sub s')). unfold in_sub. rewrite H1, H2, H3. split; auto. apply frame_put. Qed.

Lemma pack4 : forall v, 0 <= v < 2 ^ 32 -> pack_u 4 v = Ok (le_bytes 4 v).
Proof. intros. apply pack_total. auto. Qed.
Lemma set_write_total : forall s, 0 <= si_next s < 2 ^ 32 -> 0 <= si_last s < 2 ^ 32 -> 0 <= si_pid s < 65536 -> 0 <= si_size s < 256 -> zlen (si_refs s) < 2 ^ 32 ->
  Forall (fun x => 0 <= snd x < 2 ^ 32) (si_refs s) -> exists b, set_write s = Ok b.
Proof.
  intros s H1 H2 H3 H4 H5 H6. unfold set_write. pose proof (zlen_nonneg _ (si_refs s)). rewrite !pack4, !pack_total by (auto; change (256 ^ Z.of_nat 2) with 65536; change (256 ^ Z.of_nat 1) with 256; lia). cbn [bind].
  rewrite (cat_map_total _ _ (fun kl => le_bytes 4 (snd kl) ++ le_bytes 4 1 ++ fst kl)). { cbn [bind]. eauto. }
  intros x I. rewrite Forall_forall in H6. rewrite !pack4 by (auto; lia). auto.
Qed.
Lemma weaks_write_total : forall i k s refs, 0 <= i < 65536 -> 0 <= k < 65536 -> 0 <= s < 256 -> zlen refs < 2 ^ 32 -> exists b, weaks_write i k s refs = Ok b.
Proof.
  intros i k s refs H1 H2 H3 H4. unfold weaks_write. pose proof (zlen_nonneg _ refs). rewrite pack4, !pack_total by (auto; change (256 ^ Z.of_nat 2) with 65536; change (256 ^ Z.of_nat 1) with 256; lia). cbn [bind]. eauto.
Qed.

Section Total.
Variable names : Z -> Z -> list Z.
Hypothesis NB : forall cls pid, Forall bmp (names cls pid).

Lemma named_short : forall data name cls pid size, 0 <= pid < 65536 -> 6 <= size <= 32 -> name = Some (mangle_name (names cls pid) pid size) ->
  forall n, named data name n -> exists e, data = Some e /\ zlen e < 65536.
Proof.
  intros data name cls pid size Hp Hs -> n (E & _ & _ & e & EN & ->). injection E as <-. exists e. split; auto.
  destruct (bmp_le (mangle_name (names cls pid) pid size)) as (e' & E' & L). { apply mangle_bmp; auto; lia. } rewrite E' in EN. injection EN as <-.
  pose proof (C36_length_partial (names cls pid) pid size Hp). lia.
Qed.

Lemma made_data : forall cls pid p, 0 <= pid < 65536 -> prop_made names (made names) cls pid p -> prop_fits fits p -> exists e, data_of p = Some e /\ zlen e < 65536.
Proof.
  intros cls pid p HP (HF & HM) HT. destruct p as [f da|da nm c|da nm o|da nm next last items|da nm next last kp ks items|f da i k s r|f da nm i k s r]; cbn [data_of prop_form prop_fits] in *.
  - destruct HT as (b & -> & L). eauto.
  - destruct HF as (n & e & b & -> & _ & EN & -> & _). injection HM as ->. exists (85 :: e). split; auto.
    destruct (bmp_le (mangle_name (names cls pid) pid 32)) as (e' & E' & L). { apply mangle_bmp; auto; lia. } rewrite E' in EN. injection EN as <-. pose proof (C36_length_partial (names cls pid) pid 32 HP). rewrite zlen_cons. lia.
  - destruct HF as (n & HN & _). eapply named_short; eauto; lia.
  - destruct HF as (n & HN & _). destruct HM as (HM & _). eapply named_short; eauto; lia.
  - destruct HF as (n & size & HN & _). destruct HM as (HM & _). eapply named_short; eauto; lia.
  - destruct HF as (_ & i' & k' & r' & -> & -> & -> & -> & e & E & ->). exists e. split; auto. unfold weak_encode in E. destruct ((zlen r' =? 16) || (zlen r' =? 32)) eqn:S; [|discriminate]. unpack E. apply Ok_inj in E. subst e. rewrite !zlen_app, !zlen_le_bytes. lia.
  - destruct HF as (_ & n & size & HN & _). eapply named_short; eauto; lia.
Qed.

Lemma attach_total : forall (W : dir -> obj -> result dir) cls pid p d, 0 <= pid < 65536 -> prop_made names (made names) cls pid p -> prop_fits fits p -> NoDup (children p) ->
  below (fun o => exists s', W empty_dir o = Ok s') p -> (forall n, In n (children p) -> dget d n = None) ->
  exists d', attach_prop names W cls pid p d = Ok d' /\ frame (children p) d d'.
Proof.
  intros W cls pid p d HP HM HT ND HB HD. assert (HM' := HM). destruct HM as (HF & HM).
  assert (GE : forall n, In n (children p) -> (forall g, In g (child_gens pid p) -> match g with GElem _ k => k < 2 ^ 32 | _ => True end) -> entry_name n = Ok tt).
  { intros n I GK. rewrite (children_gens _ _ _ _ _ HM') in I. apply in_map_iff in I. destruct I as (g & <- & I). destruct (gens_ok names (made names) cls pid p) as [G _]; auto; try lia. rewrite Forall_forall in G.
    apply gen_entry; [auto|auto| |exact (GK g I)]. replace (gpid g) with pid; auto. destruct p; cbn [child_gens] in I; try (destruct I as [<-|[]]; auto; fail); try (destruct I; fail); apply in_map_iff in I; destruct I as (x & <- & _); auto. }
  destruct p as [f da|da nm c|da nm o|da nm next last items|da nm next last kp ks items|f da i k s r|f da nm i k s r]; cbn [attach_prop children prop_form prop_fits below] in *;
    try (exists d; split; auto; split; auto; fail).
  - destruct HF as (n & e & b & -> & _ & _ & _ & ->). rewrite (HD n (or_introl eq_refl)), (GE n (or_introl eq_refl)) by (intros g [<-|[]]; auto). eexists. split; [reflexivity|]. apply frame_put.
  - destruct HF as (n & (-> & _) & HO). destruct o as [o|]; [|destruct HO]. apply in_sub_total; auto. { apply HD. left; auto. } { apply GE; [left; auto|]. intros g [<-|[]]; auto. }
  - destruct HF as (n & (-> & Hne & _) & HO). rewrite vec_name_some by auto. destruct HT as (_ & _ & _ & HK & _).
    assert (E : map (fun x : Z * obj => element_storage n (fst x)) items = flat_map (fun x => [element_storage n (fst x)]) items) by (clear; induction items; cbn; f_equal; auto).
    rewrite E in *. apply each_total; auto. intros x e I J. apply in_sub_total. { apply J. left; auto. }
    + apply GE; [apply in_flat_map; exists x; split; auto; left; auto|]. intros g K. cbn [child_gens] in K. apply in_map_iff in K. destruct K as (y & <- & K). rewrite Forall_forall in HK. auto.
    + rewrite Forall_forall in HB. auto.
  - destruct HF as (n & size & (-> & _) & HO). cbn [text_of bind]. destruct HT as (_ & _ & _ & HK & _).
    assert (E : map (fun x : list Z * (Z * obj) => element_storage n (fst (snd x))) items = flat_map (fun x => [element_storage n (fst (snd x))]) items) by (clear; induction items; cbn; f_equal; auto).
    rewrite E in *. apply each_total; auto. intros x e I J. apply in_sub_total. { apply J. left; auto. }
    + apply GE; [apply in_flat_map; exists x; split; auto; left; auto|]. intros g K. cbn [child_gens] in K. apply in_map_iff in K. destruct K as (y & <- & K). rewrite Forall_forall in HK. auto.
    + rewrite Forall_forall in HB. auto.
Qed.

Lemma index_total : forall cls pid p d, 0 <= pid < 65536 -> prop_made names (made names) cls pid p -> prop_fits fits p ->
  (forall n s, In n (indexes p) -> dget d n <> Some (Sub s)) -> exists d', index_prop names cls pid p d = Ok d' /\ frame (indexes p) d d'.
Proof.
  intros cls pid p d HP HM HT HD. assert (HM' := HM). destruct HM as (HF & HM).
  assert (GE : forall n, In n (indexes p) -> entry_name n = Ok tt).
  { intros n I. rewrite (indexes_gens _ _ _ _ _ HM') in I. apply in_map_iff in I. destruct I as (g & <- & I). destruct (gens_ok names (made names) cls pid p) as [_ G]; auto; try lia. rewrite Forall_forall in G.
    apply gen_entry; auto; destruct p; cbn [index_gens] in I; try (destruct I; fail); destruct I as [<-|[]]; auto. }
  assert (PS : forall n b, In n (indexes p) -> exists d', put_stream d n b = Ok d' /\ frame [n] d d').
  { intros n b I. unfold put_stream. rewrite (GE n I). destruct (dget d n) as [[f|s]|] eqn:E; [|exfalso; exact (HD n s I E)|]; eexists; (split; [reflexivity|]); apply frame_put. }
  destruct p as [f da|da nm c|da nm o|da nm next last items|da nm next last kp ks items|f da i k s r|f da nm i k s r]; cbn [index_prop indexes prop_form prop_fits] in *;
    try (exists d; split; auto; split; auto; fail).
  - destruct HF as (n & (-> & Hne & _) & HO). rewrite vec_name_some by auto. destruct HT as (H1 & H2 & H3 & H4 & _). destruct HM as (_ & _ & H5).
    destruct (C32_vector_total next last (map fst items)) as (b & ->); auto. { rewrite zlen_map. auto. } { rewrite Forall_forall in *. intros k I. apply in_map_iff in I. destruct I as (x & <- & I). auto. }
    cbn [bind]. apply PS. left; auto.
  - destruct HF as (n & size & (-> & _) & _ & -> & HS & _). destruct HT as (H1 & H2 & H3 & H4 & (k & -> & H6) & _). destruct HM as (_ & _ & H5). cbn [text_of num bind].
    destruct (set_write_total (SetIndex next last k size (map (fun x => (fst x, fst (snd x))) items))) as (b & ->); cbn [si_next si_last si_pid si_size si_refs]; auto; try lia.
    { rewrite zlen_map. auto. } { rewrite Forall_forall in *. intros y I. apply in_map_iff in I. destruct I as (x & <- & I). cbn. auto. }
    cbn [bind]. apply PS. left; auto.
  - destruct HF as (_ & n & size & (-> & _) & _ & _ & -> & HS & _). destruct HT as ((i' & k' & -> & -> & H1 & H2) & H3). cbn [text_of num bind].
    destruct (weaks_write_total i' k' size r) as (b & ->); auto; try lia. cbn [bind]. apply PS. left; auto.
Qed.
End Total.

(** An object the library built, whose property names are of ordinary characters and whose numbers fit
    the formats, can be saved into an empty directory. *)
Theorem C63_saves : forall names, (forall cls pid, Forall bmp (names cls pid)) -> forall o c, made names o -> fits o ->
  exists d', write_obj names (Dir c []) o = Ok d'.
Proof.
  intros names NB o. induction o as [cls props IH] using obj_induct. intros c HM HT. pose proof (C63_library _ _ HM) as HW. cbn [made fits well_formed write_obj] in *.
  destruct HM as (HN & HP & HM). destruct HT as (HL & HT). destruct HW as (_ & ND & _). rewrite every_Forall in *. rewrite Forall_forall in *.
  apply NoDup_cons_iff in ND. destruct ND as [NI ND]. apply NoDup_app_iff in ND. destruct ND as (N1 & N2 & N3).
  assert (NC : forall x, In x props -> NoDup (children (snd x))).
  { clear - N1. intros x I. apply in_split in I. destruct I as (a & b & ->). rewrite flat_map_app in N1. apply NoDup_app_iff in N1. destruct N1 as (_ & N1 & _). cbn [flat_map] in N1. apply NoDup_app_iff in N1. tauto. }
  destruct (each_total _ (fun x d => attach_prop names (write_obj names) cls (fst x) (snd x) d) (fun x => children (snd x)) props) with (d := set_class (Dir c []) cls) as (d1 & E1 & C1 & F1); auto.
  { intros x e I J. apply attach_total; auto.
    specialize (IH x I). specialize (HM x I). specialize (HT x I). destruct HM as (HF & _). destruct x as [pid p]. cbn [fst snd] in *. destruct p as [| |da nm [o|]|da nm next last items|da nm next last kp ks items| |]; cbn [below prop_form prop_fits] in *; auto.
    - destruct HF as (n & _ & W). apply IH; auto.
    - destruct HF as (n & _ & W). destruct HT as (_ & _ & _ & _ & T). rewrite every_Forall in *. rewrite Forall_forall in *. intros y K. apply IH; auto.
    - destruct HF as (n & size & _ & _ & _ & _ & _ & _ & W). destruct HT as (_ & _ & _ & _ & _ & T). rewrite every_Forall in *. rewrite Forall_forall in *. intros y K. apply IH; auto. }
  rewrite E1. cbn [bind]. unfold save_obj.
  assert (AO : all_of (fun x => do v <- prop_data names cls (fst x) (snd x) ;; Ok (fst x, prop_format (snd x), v)) props = Ok (map (fun x => (fst x, prop_format (snd x), data_of (snd x))) props)).
  { clear - HM. assert (HM' : forall x, In x props -> exists Q, prop_form Q (snd x)) by (intros x I; destruct (HM x I); eauto). clear HM. induction props as [|x l IHl]; auto. cbn [all_of map]. destruct (HM' x (or_introl eq_refl)) as (Q & F). rewrite (prop_data_ok names Q) by auto. cbn [bind]. fold (@all_of (Z * prop) (Z * Z * option (list Z))). rewrite IHl by (intros; apply HM'; right; auto). auto. }
  rewrite AO. cbn [bind]. destruct (C29_refuses [] (map (fun x => (fst x, prop_format (snd x), data_of (snd x))) props)) as [R _].
  unfold write_properties in R. destruct (encode_properties _) as [b|].
  2:{ exfalso. assert (X : Err e = Ok tt :> result unit); [|discriminate]. cbn [snd] in R. apply R. split; [rewrite zlen_map; auto|]. rewrite Forall_forall. intros y I. apply in_map_iff in I. destruct I as (x & <- & I).
      destruct (made_data names NB cls (fst x) (snd x)) as (e' & D & L); auto. cbn. split; [apply HP; auto|]. split; [|eauto]. destruct (HM x I) as (F & _). pose proof (form_format names _ _ F) as G. unfold formats in G. cbn in G. lia. }
  cbn [bind]. unfold put_stream. rewrite F1 by (intros I; apply NI; apply in_or_app; auto). cbn [set_class dget dict_get].
  change (entry_name (codes "properties")) with (Ok tt). cbn [bind].
  destruct (each_total _ (fun x d => index_prop names cls (fst x) (snd x) d) (fun x => indexes (snd x)) props) with (d := dput d1 (codes "properties") (File b)) as (d2 & E2 & _); auto.
  { intros x e I J. apply index_total; auto. intros n s K. rewrite (J n K). discriminate. }
  { intros n I. rewrite dget_put. destruct (zlist_eqb (codes "properties") n) eqn:Z. { apply zlist_eqb_spec in Z. subst n. exfalso. apply NI. apply in_or_app. auto. } rewrite F1; [reflexivity|]. intros J. exact (N3 n J I). }
  eauto.
Qed.
