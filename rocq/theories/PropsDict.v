(** C69: looking up, registering and merging the definitions of the dictionary. *)
From Verif Require Import Base BaseFacts Codec Text TextFacts TypesModel TypesFacts MetaModel.
From Coq Require Import ZArith List Bool String Lia.
From Verif Require Import DictModel.
Import ListNotations.
Open Scope Z_scope.

(** ** Specification *)
Definition keys (D : dictionary) (k : kind) : list Z := map fst (entries D k).
Definition found (D : dictionary) (k : kind) (d : def) : Prop := In (d_auid d, d) (entries D k).
(** Each set has its own kind of definitions under their identifiers; references lead to definitions that are
    there. *)
Definition sound (D : dictionary) : Prop := forall k, NoDup (keys D k) /\ forall a d, In (a, d) (entries D k) ->
  a = d_auid d /\ d_kind d = k /\
  (forall r, d_data d = Some r -> k = DOper /\ In r (keys D DData)) /\
  (d_params d <> None -> k = DOper) /\ (forall l r, d_params d = Some l -> In r l -> In r (keys D DParam)) /\
  (d_codec d <> None -> k = DCodec) /\ (forall l r, d_codec d = Some l -> In r l -> In r (keys D DData)).
(** the definitions of [other] that [D] lacks, in order *)
Definition lacks (D other : dictionary) (k : kind) (l : list (Z * def)) : Prop :=
  exists p, (forall a, p a = true <-> ~ In a (keys D k)) /\ l = filter (fun x => p (fst x)) (entries other k).
(** an operation in both has at least the other's parameters *)
Definition agree (D other : dictionary) : Prop := forall d o, found D DOper d -> found other DOper o -> d_auid d = d_auid o ->
  forall r l, d_params o = Some l -> In r l -> exists l', d_params d = Some l' /\ In r l'.
(** no array of references that is there but empty *)
Definition no_empty (D : dictionary) : Prop := forall k a d, In (a, d) (entries D k) -> d_params d <> Some [] /\ d_codec d <> Some [].

(** ** Facts *)
Lemma kind_eqb_spec : forall a b, kind_eqb a b = true <-> a = b.
Proof. intros [] []; cbn; split; auto; discriminate. Qed.
Lemma kind_eqb_refl : forall a, kind_eqb a a = true.
Proof. intros a. apply kind_eqb_spec. auto. Qed.
Lemma memb : forall r l, existsb (Z.eqb r) l = true <-> In r l.
Proof. intros r l. rewrite existsb_exists. split; [intros (x & I & E); apply Z.eqb_eq in E; subst; auto|intros I; exists r; split; auto; apply Z.eqb_refl]. Qed.
Lemma get_Some : forall (l : list (Z * def)) a d, dict_get Z.eqb l a = Some d -> In (a, d) l.
Proof. induction l as [|[b x] l IH]; intros a d H; [discriminate|]. cbn [dict_get] in H. destruct (Z.eqb_spec b a) as [->|]; [injection H as ->; left; auto|right; auto]. Qed.
Lemma get_None : forall (l : list (Z * def)) a, dict_get Z.eqb l a = None -> ~ In a (map fst l).
Proof. induction l as [|[b x] l IH]; intros a H; auto. cbn [dict_get] in H. destruct (Z.eqb_spec b a) as [->|N]; [discriminate|]. cbn. intros [E|I]; auto. apply (IH a); auto. Qed.
Lemma get_in : forall (l : list (Z * def)) a, In a (map fst l) -> exists d, dict_get Z.eqb l a = Some d.
Proof. intros l a I. destruct (dict_get Z.eqb l a) eqn:E; eauto. apply get_None in E. contradiction. Qed.
Lemma get_own : forall (l : list (Z * def)) a d, NoDup (map fst l) -> In (a, d) l -> dict_get Z.eqb l a = Some d.
Proof. intros. apply dict_get_in; auto. intros. apply Z.eqb_eq. Qed.
Lemma entries_append : forall D k d, ~ In (d_auid d) (keys D k) -> entries (append D k d) k = entries D k ++ [(d_auid d, d)].
Proof. intros D k d N. unfold append, entries at 1. rewrite kind_eqb_refl. apply dict_set_new; auto. intros. apply Z.eqb_eq. Qed.
Lemma append_other : forall D k d j, j <> k -> append D k d j = D j.
Proof. intros D k d j N. unfold append. destruct (kind_eqb k j) eqn:E; auto. apply kind_eqb_spec in E. congruence. Qed.
Lemma append_there : forall D k d, append D k d k <> None.
Proof. intros D k d. unfold append. rewrite kind_eqb_refl. discriminate. Qed.

(** ** Lookups *)

(** By identifier: the definition under it, or None. *)
Theorem C69_by_id : forall lower D k a, sound D ->
  exists r, lookup_def lower D k (ById a) = Ok r /\ forall d, r = Some d <-> (found D k d /\ d_auid d = a).
Proof.
  intros lower D k a S. eexists. split; [reflexivity|]. intros d. destruct (S k) as [N F]. split.
  - intros H. apply get_Some in H. destruct (F _ _ H) as [-> _]. auto.
  - intros [H <-]. apply get_own; auto.
Qed.
(** [removed old s r]: [r] is [s] without the occurrences of [old], from the left and not overlapping *)
Inductive removed (old : list Z) : list Z -> list Z -> Prop :=
  | rm_nil : removed old [] []
  | rm_cut : forall s r, removed old s r -> removed old (old ++ s) r
  | rm_keep : forall c s r, ~ (exists t, c :: s = old ++ t) -> removed old s r -> removed old (c :: s) (c :: r).
(** the prefixes of old names are not part of the short name *)
Definition shortened (n m : list Z) : Prop := exists x, removed (codes "DataDef_") n x /\ removed (codes "ContainerDef_") x m.
(** the names are the same but for prefixes and case; a definition without a name counts as one with the empty name *)
Definition matches (lower : list Z -> list Z) (n : list Z) (d : def) : Prop :=
  exists a b, shortened n a /\ shortened (match d_name d with Some s => s | None => [] end) b /\ lower a = lower b.
Lemma is_prefix_app : forall p s, is_prefix p s = true -> exists t, s = p ++ t.
Proof. induction p as [|c p IH]; intros s H; [exists s; auto|]. destruct s as [|x s]; [discriminate|]. cbn in H. apply andb_true_iff in H as [E H]. apply Z.eqb_eq in E. subst x. destruct (IH _ H) as [t ->]. exists t. auto. Qed.
Lemma del_keep : forall old c s, ~ (exists t, c :: s = old ++ t) -> del_sub old (c :: s) = c :: del_sub old s.
Proof. intros old c s N. unfold del_sub. cbn [del_go]. destruct (is_prefix old (c :: s)) eqn:E; auto. apply is_prefix_app in E. contradiction. Qed.
Lemma removed_del : forall old s r, old <> [] -> (removed old s r <-> r = del_sub old s).
Proof.
  intros old s r Ne. split.
  - intros H. induction H as [|s r H IH|c s r N H IH]; [reflexivity|rewrite del_front by auto; auto|rewrite del_keep by auto; congruence].
  - intros ->. remember (List.length s) as n eqn:En. revert s En. induction n as [n IH] using lt_wf_ind. intros s ->. destruct s as [|c s]; [constructor|]. destruct (is_prefix old (c :: s)) eqn:E.
    + apply is_prefix_app in E as [t E]. rewrite E, del_front by auto. constructor. apply (IH (List.length t)); auto. rewrite E, app_length. destruct old; [congruence|cbn; lia].
    + assert (N : ~ (exists t, c :: s = old ++ t)) by (intros [t X]; rewrite X, is_prefix_self in E; discriminate). rewrite del_keep by auto. constructor; auto. apply (IH (List.length s)); auto.
Qed.
Lemma shortened_iff : forall n m, shortened n m <-> m = short_name n.
Proof.
  intros n m. unfold shortened, short_name. assert (N1 : codes "DataDef_" <> []) by discriminate. assert (N2 : codes "ContainerDef_" <> []) by discriminate. split.
  - intros (x & A & B). apply removed_del in A; auto. apply removed_del in B; auto. subst. auto.
  - intros ->. exists (del_sub (codes "DataDef_") n). split; apply removed_del; auto.
Qed.
Lemma matches_iff : forall lower n d, matches lower n d <-> lower (short_name n) = lower (short_name (match d_name d with Some s => s | None => [] end)).
Proof.
  intros lower n d. split; [intros (a & b & A & B & E); apply shortened_iff in A, B; subst; auto|]. intros E. do 2 eexists. split; [apply shortened_iff; reflexivity|]. split; [apply shortened_iff; reflexivity|auto].
Qed.
Lemma shown_short : forall d, shown d = short_name (match d_name d with Some s => s | None => [] end).
Proof. intros d. unfold shown. destruct (d_name d) as [[|c s]|]; reflexivity. Qed.
(** By name: the first definition of the set with the same short name in lower case; if there is none it is an error. *)
Theorem C69_by_name : forall lower D k n,
  (forall d, lookup_def lower D k (ByName n) = Ok (Some d) <-> exists l a r, entries D k = l ++ (a, d) :: r /\ matches lower n d /\ forall x, In x l -> ~ matches lower n (snd x)) /\
  ((forall x, In x (entries D k) -> ~ matches lower n (snd x)) -> lookup_def lower D k (ByName n) = Err GenericError).
Proof.
  intros lower D k n. cbn [lookup_def]. generalize (entries D k). intros l.
  assert (B : forall x : Z * def, zlist_eqb (lower (short_name n)) (lower (shown (snd x))) = true <-> matches lower n (snd x)) by (intros x; rewrite matches_iff, <- shown_short; apply zlist_eqb_spec).
  split.
  - intros d. split.
    + intros H. destruct (find _ l) as [y|] eqn:E; [|discriminate]. injection H as <-. revert E. induction l as [|x l IH]; intros E; [discriminate|]. cbn [find] in E. destruct (zlist_eqb _ _) eqn:X.
      * injection E as ->. exists [], (fst y), l. split; [destruct y; auto|]. split; [apply B; auto|intros ? []].
      * destruct (IH E) as (p & a & r & -> & M & N). exists (x :: p), a, r. split; auto. split; auto. intros z [<-|I]; auto. intros Q. apply B in Q. congruence.
    + intros (p & a & r & -> & M & N). replace (find _ (p ++ (a, d) :: r)) with (Some (a, d)); auto. symmetry. induction p as [|x p IH]; cbn [app find].
      * destruct (zlist_eqb _ _) eqn:X; auto. assert (Q : zlist_eqb (lower (short_name n)) (lower (shown (snd (a, d)))) = true) by (apply B; auto). congruence.
      * destruct (zlist_eqb _ (lower (shown (snd x)))) eqn:X; [exfalso; apply (N x); [left; auto|apply B; auto]|]. apply IH. intros z I. apply N. right. auto.
  - intros H. destruct (find _ l) as [y|] eqn:E; auto. apply find_some in E as [I E]. apply B in E. exfalso. apply (H y); auto.
Qed.
(** An object of the right class is returned as it is, in the dictionary or not; any other is an error. *)
Theorem C69_by_object : forall lower D k d, lookup_def lower D k (ByObject d) = if kind_eqb (d_kind d) k then Ok (Some d) else Err GenericError.
Proof. auto. Qed.
(** A definition that is registered is found by its identifier from then on, and by its name unless another of the set
    has the same short name. The other sets stay as they are. *)
Theorem C69_register : forall lower D d D', sound D -> register_def D d = Ok D' ->
  lookup_def lower D' (d_kind d) (ById (d_auid d)) = Ok (Some d) /\ (forall j, j <> d_kind d -> D' j = D j) /\
  (forall a x, a <> d_auid d -> (In (a, x) (entries D' (d_kind d)) <-> In (a, x) (entries D (d_kind d)))) /\
  (forall n, d_name d = Some n -> (forall a x, a <> d_auid d -> In (a, x) (entries D (d_kind d)) -> ~ matches lower n x) -> lookup_def lower D' (d_kind d) (ByName n) = Ok (Some d)).
Proof.
  intros lower D d D' S H. assert (E : D' = append D (d_kind d) d) by (unfold register_def in H; destruct (d_kind d); congruence). subst D'. set (k := d_kind d). clear H.
  assert (EE : entries (append D k d) k = dict_set Z.eqb (entries D k) (d_auid d) d). { unfold append, entries at 1. rewrite kind_eqb_refl. auto. }
  destruct (S k) as [N F]. unfold keys in N.
  assert (G : forall l : list (Z * def), NoDup (map fst l) -> In (d_auid d, d) (dict_set Z.eqb l (d_auid d) d) /\ forall a x, a <> d_auid d -> (In (a, x) (dict_set Z.eqb l (d_auid d) d) <-> In (a, x) l)).
  { clear. induction l as [|[b y] l IH]; intros N; cbn [dict_set].
    - split; [left; auto|]. intros a x Ne. cbn. split; [intros [E|[]]; injection E as <- <-; congruence|intros []].
    - cbn in N. inversion N; subst. destruct (IH H2) as [I1 I2]. destruct (Z.eqb_spec b (d_auid d)) as [->|Nb].
      + split; [left; auto|]. intros a x Ne. cbn. split; (intros [E|I]; [injection E as <- <-; congruence|auto]).
      + split; [right; auto|]. intros a x Ne. cbn. rewrite I2 by auto. tauto. }
  destruct (G _ N) as [G1 G2]. assert (N' : NoDup (map fst (dict_set Z.eqb (entries D k) (d_auid d) d))) by (apply dict_set_keys; auto; intros; apply Z.eqb_eq).
  split. { cbn [lookup_def]. rewrite EE. f_equal. apply get_own; auto. } split; [intros; apply append_other; auto|]. split. { intros a x Ne. rewrite EE. auto. }
  intros n En U. apply C69_by_name. rewrite EE. apply in_split in G1 as (l & r & Es). exists l, (d_auid d), r. split; auto. split; [apply matches_iff; rewrite En; auto|].
  intros [a x] I. cbn [snd]. assert (Ne : a <> d_auid d). { rewrite Es in N'. rewrite map_app in N'. cbn [map fst] in N'. apply NoDup_remove_2 in N'. intros ->. apply N'. apply in_or_app. left. change (d_auid d) with (fst (d_auid d, x)). apply in_map. auto. }
  apply (U a x Ne). apply G2; auto. rewrite Es. apply in_or_app. auto.
Qed.

(** ** Update *)
Definition keyed (D : dictionary) : Prop := forall k a d, In (a, d) (entries D k) -> a = d_auid d.
(** the sets that [k] refers to are done *)
Definition ready (D other : dictionary) (k : kind) : Prop :=
  (k = DOper \/ k = DCodec -> forall r, In r (keys other DData) -> In r (keys D DData)) /\ (k = DOper -> forall r, In r (keys other DParam) -> In r (keys D DParam)).
Definition lack (D other : dictionary) (k : kind) : list (Z * def) := filter (fun x => negb (existsb (Z.eqb (fst x)) (keys D k))) (entries other k).
Lemma lack_lacks : forall D other k, lacks D other k (lack D other k).
Proof. intros D other k. exists (fun a => negb (existsb (Z.eqb a) (keys D k))). split; auto. intros a. rewrite negb_true_iff. rewrite <- not_true_iff_false. rewrite memb. tauto. Qed.
Lemma key_of : forall (l : list (Z * def)) a d, In (a, d) l -> In a (map fst l).
Proof. intros l a d I. apply in_map with (f := fst) in I. auto. Qed.

Lemma target_keys : forall D k t, target D k = Ok t -> map fst t = keys D k.
Proof. intros D k t H. unfold target in H. unfold keys, entries. destruct (D k); [injection H as ->; auto|discriminate]. Qed.
Lemma target_ok : forall D k r, In r (keys D k) -> exists t, target D k = Ok t.
Proof. intros D k r I. unfold target. unfold keys, entries in I. destruct (D k); eauto. destruct I. Qed.
(** with what [k] refers to in place, the copy adds no other definition *)
Lemma copy_same : forall D other k o D', sound other -> In (d_auid o, o) (entries other k) -> ready D other k -> copy_def D other o = Ok D' -> D' = D.
Proof.
  intros D other k o D' S I [R1 R2] H. destruct (S k) as [_ F]. destruct (F _ _ I) as (_ & _ & Fd & _). unfold copy_def in H.
  destruct (copy_ref D other DData (d_data o)) as [D1|e] eqn:E; [|discriminate]. assert (D1 = D).
  { unfold copy_ref in E. destruct (d_data o) as [r|]; [|congruence]. destruct (Fd r eq_refl) as [-> Ir]. apply (R1 (or_introl eq_refl)) in Ir.
    destruct (target D DData) as [t|] eqn:T; [|discriminate]. cbn [bind] in E. apply target_keys in T. rewrite T in E. apply memb in Ir. rewrite Ir in E. congruence. }
  subst D1. cbn [bind] in H. destruct (copy_refs D DParam (d_params o)); [|discriminate]. cbn [bind] in H. destruct (copy_refs D DData (d_codec o)); [|discriminate]. cbn [bind] in H. congruence.
Qed.
Lemma copy_ok : forall D other k o, sound other -> no_empty other -> In (d_auid o, o) (entries other k) -> ready D other k -> copy_def D other o = Ok D.
Proof.
  intros D other k o S NE I [R1 R2]. destruct (S k) as [_ F]. destruct (F _ _ I) as (_ & _ & Fd & Fp & Fq & Fc & Fe). destruct (NE _ _ _ I) as [N1 N2]. unfold copy_def.
  assert (E : copy_ref D other DData (d_data o) = Ok D).
  { unfold copy_ref. destruct (d_data o) as [r|]; auto. destruct (Fd r eq_refl) as [-> Ir]. apply (R1 (or_introl eq_refl)) in Ir. destruct (target_ok _ _ _ Ir) as [t T]. rewrite T. cbn [bind]. apply target_keys in T. rewrite T. apply memb in Ir. rewrite Ir. auto. }
  rewrite E. cbn [bind].
  assert (G : forall j refs, refs <> Some [] -> (forall l r, refs = Some l -> In r l -> In r (keys D j)) -> copy_refs D j refs = Ok tt).
  { intros j refs N A. unfold copy_refs. destruct refs as [[|r l]|]; [congruence| |auto]. destruct (target_ok D j r) as [t T]; [apply (A (r :: l)); [auto|left; auto]|]. rewrite T. cbn [bind]. apply target_keys in T. rewrite T.
    replace (forallb _ (r :: l)) with true; auto. symmetry. apply forallb_forall. intros x Ix. apply memb. eapply A; eauto. }
  rewrite (G DParam), (G DData); auto.
  - intros l r El Ir. apply R1; [right; apply Fc; congruence|]. eapply Fe; eauto.
  - intros l r El Ir. apply R2; [apply Fp; congruence|]. eapply Fq; eauto.
Qed.

(** one definition *)
Lemma one_same : forall D other k o D', sound other -> In (d_auid o, o) (entries other k) -> ready D other k -> update_one other k D o = Ok D' ->
  D' = if existsb (Z.eqb (d_auid o)) (keys D k) then D else append D k o.
Proof.
  intros D other k o D' S I R H. unfold update_one in H. destruct (dict_get Z.eqb (entries D k) (d_auid o)) as [d|] eqn:G.
  - assert (M : existsb (Z.eqb (d_auid o)) (keys D k) = true) by (apply memb; eapply key_of, get_Some; eauto). rewrite M.
    destruct k; try congruence. destruct (check_params _ _ _ _); [|discriminate]. cbn [bind] in H. congruence.
  - assert (M : existsb (Z.eqb (d_auid o)) (keys D k) = false) by (apply not_true_iff_false; rewrite memb; apply get_None; auto). rewrite M.
    destruct (copy_def D other o) as [D1|] eqn:E; [|discriminate]. cbn [bind] in H. apply (copy_same _ _ k) in E; auto. congruence.
Qed.
(** the parameters the operations in [l] need are there *)
Definition agrees (D : dictionary) (l : list (Z * def)) : Prop :=
  forall d o, In (d_auid d, d) (entries D DOper) -> In (d_auid o, o) l -> d_auid d = d_auid o -> incl (refs_of (d_params o)) (refs_of (d_params d)).
Lemma check_iff : forall D other own l, sound other -> keyed D -> (forall r, In r l -> In r (keys other DParam)) -> (forall r, In r (keys other DParam) -> In r (keys D DParam)) ->
  check_params D other own l = Ok tt <-> incl l own.
Proof.
  intros D other own l S K A R. induction l as [|r l IH]; [split; auto; intros _ ? []|]. cbn [check_params].
  destruct (get_in (entries other DParam) r) as [p P]; [apply A; left; auto|]. rewrite P. apply get_Some in P. destruct (S DParam) as [_ F]. destruct (F _ _ P) as [<- _].
  destruct (get_in (entries D DParam) r) as [q Q]; [apply R, A; left; auto|]. rewrite Q. apply get_Some in Q. apply K in Q. rewrite <- Q.
  destruct (existsb (Z.eqb r) own) eqn:M.
  - apply memb in M. rewrite IH by (intros x I; apply A; right; auto). split; [intros H x [<-|I]; auto|intros H x I; apply H; right; auto].
  - split; [discriminate|]. intros H. assert (X : In r own) by (apply H; left; auto). apply memb in X. congruence.
Qed.
Lemma ready_grow : forall D D' other k, (forall j r, In r (keys D j) -> In r (keys D' j)) -> ready D other k -> ready D' other k.
Proof. intros D D' other k G [R1 R2]. split; auto. Qed.
Lemma keys_append : forall D k d j r, In r (keys D j) -> In r (keys (append D k d) j).
Proof.
  intros D k d j r I. destruct (kind_eqb j k) eqn:E.
  - apply kind_eqb_spec in E. subst j. destruct (in_dec Z.eq_dec (d_auid d) (keys D k)) as [J|J].
    + unfold keys, append, entries at 1. rewrite kind_eqb_refl. unfold keys in I. revert I. generalize (entries D k). clear. induction l as [|[b y] l IH]; intros I; [destruct I|]. cbn [dict_set].
      destruct (Z.eqb_spec b (d_auid d)) as [->|Nb]; cbn in *; [tauto|]. destruct I; auto.
    + unfold keys in *. rewrite entries_append by auto. rewrite map_app. apply in_or_app. auto.
  - unfold keys, entries. rewrite append_other; auto. intros ->. rewrite kind_eqb_refl in E. discriminate.
Qed.
Lemma keyed_append : forall D k d, keyed D -> ~ In (d_auid d) (keys D k) -> keyed (append D k d).
Proof.
  intros D k d K N j a x I. destruct (kind_eqb j k) eqn:E.
  - apply kind_eqb_spec in E. subst j. rewrite entries_append in I by auto. apply in_app_or in I as [I|[I|[]]]; [eapply K; eauto|]. injection I as <- <-. auto.
  - eapply (K j). unfold entries in *. rewrite append_other in I; auto. intros ->. rewrite kind_eqb_refl in E. discriminate.
Qed.

Lemma nodup_snoc : forall (l : list Z) a, NoDup l -> ~ In a l -> NoDup (l ++ [a]).
Proof. induction l as [|b l IH]; intros a N I; cbn; [constructor; auto; constructor|]. inversion N; subst. constructor; [|apply IH; auto; intros J; apply I; right; auto]. intros J. apply in_app_or in J as [J|[J|[]]]; auto. apply I. left. auto. Qed.

(** one set *)
Lemma all_spec : forall other k l D, sound other -> keyed D -> NoDup (keys D k) -> NoDup (map fst l) -> (forall x, In x l -> In x (entries other k)) -> ready D other k ->
  (forall D', update_all other k D l = Ok D' -> keyed D' /\ (forall j, j <> k -> D' j = D j) /\ entries D' k = entries D k ++ filter (fun x => negb (existsb (Z.eqb (fst x)) (keys D k))) l /\ (k = DOper -> agrees D l)) /\
  (no_empty other -> (k = DOper -> agrees D l) -> exists D', update_all other k D l = Ok D').
Proof.
  intros other k l. induction l as [|[a o] l IH]; intros D S K ND N A R.
  - split; [|intros; cbn; eauto]. intros D' H. injection H as <-. cbn. rewrite app_nil_r. split; auto. split; auto. split; auto. intros _ d x _ [].
  - cbn in N. inversion N as [|? ? N1 N2]; subst. assert (Io : In (a, o) (entries other k)) by (apply A; left; auto). destruct (S k) as [Nk F]. destruct (F _ _ Io) as (Ea & _ & Fd & Fp & Fq & _). subst a.
    cbn [update_all filter fst]. destruct (existsb (Z.eqb (d_auid o)) (keys D k)) eqn:M; cbn [negb].
    + (* there *)
      assert (X : update_one other k D o = Ok D <-> (k = DOper -> forall d, In (d_auid d, d) (entries D k) -> d_auid d = d_auid o -> incl (refs_of (d_params o)) (refs_of (d_params d)))).
      { unfold update_one. apply memb in M. destruct (get_in _ _ M) as [d G]. rewrite G. pose proof (get_Some _ _ _ G) as Id. pose proof (K _ _ _ Id) as Ed.
        assert (U : forall d', In (d_auid d', d') (entries D k) -> d_auid d' = d_auid o -> d' = d). { intros d' I' E'. rewrite E' in I'. apply get_own in I'; auto. congruence. }
        destruct k; try (split; [congruence|auto]). destruct R as [_ R2].
        assert (Q : check_params D other (refs_of (d_params d)) (refs_of (d_params o)) = Ok tt <-> incl (refs_of (d_params o)) (refs_of (d_params d))).
        { apply check_iff; auto. intros r Ir. destruct (d_params o) as [lp|] eqn:El; [|destruct Ir]. eapply Fq; eauto. }
        split.
        - intros H _ d' I' E'. rewrite (U d') by auto. apply Q. destruct (check_params _ _ _ _) as [[]|]; [auto|discriminate].
        - intros H. replace (check_params D other (refs_of (d_params d)) (refs_of (d_params o))) with (@Ok unit tt); auto. symmetry. apply Q. apply H; auto. congruence. }
      destruct (IH D) as [I1 I2]; auto. { intros x Ix. apply A. right. auto. } split.
      * intros D' H. destruct (update_one other k D o) as [D1|] eqn:E; [|discriminate]. cbn [bind] in H. pose proof (one_same _ _ _ _ _ S Io R E) as E1. rewrite M in E1. subst D1. destruct (I1 _ H) as (K' & O' & E' & A'). split; auto. split; auto. split; auto.
        intros -> d x Id [Ex|Ix] Edx; [|apply A'; auto]. injection Ex as _ ->. apply X; auto.
      * intros NE AG. destruct (I2 NE) as [D' H]; [intros -> d x Id Ix; apply AG; auto; right; auto|]. exists D'. replace (update_one other k D o) with (Ok D); auto. symmetry. apply X. intros -> d Id E. apply AG; auto. left. auto.
    + assert (M' : ~ In (d_auid o) (keys D k)) by (rewrite <- memb; congruence).
      assert (EE := entries_append D k o M').
      assert (KK : keys (append D k o) k = keys D k ++ [d_auid o]) by (unfold keys; rewrite EE, map_app; auto).
      assert (FF : filter (fun x => negb (existsb (Z.eqb (fst x)) (keys (append D k o) k))) l = filter (fun x => negb (existsb (Z.eqb (fst x)) (keys D k))) l).
      { apply filter_ext_in. intros [b y] Iy. cbn [fst]. f_equal. rewrite KK, existsb_app. cbn. replace (b =? d_auid o) with false; [rewrite !orb_false_r; auto|]. symmetry. apply Z.eqb_neq. intros ->. apply N1. eapply key_of; eauto. }
      assert (AG : k = DOper -> (agrees (append D k o) l <-> agrees D ((d_auid o, o) :: l))).
      { intros ->. unfold agrees. rewrite EE. split.
        - intros H d x Id [Ex|Ix] E. { injection Ex as Ex ->. exfalso. apply M'. rewrite <- E. eapply key_of; eauto. } apply H; auto. apply in_or_app. auto.
        - intros H d x Id Ix E. apply in_app_or in Id as [Id|[Id|[]]]; [apply H; auto; right; auto|]. injection Id as _ <-. exfalso. apply N1. rewrite E. eapply key_of; eauto. }
      destruct (IH (append D k o)) as [I1 I2]; auto.
      { apply keyed_append; auto. } { rewrite KK. apply nodup_snoc; auto. } { intros x Ix. apply A. right. auto. } { eapply ready_grow; [|eauto]. intros. apply keys_append. auto. }
      split.
      * intros D' H. destruct (update_one other k D o) as [D1|] eqn:E; [|discriminate]. cbn [bind] in H. pose proof (one_same _ _ _ _ _ S Io R E) as E1. rewrite M in E1. subst D1. destruct (I1 _ H) as (K' & O' & E' & A'). split; auto. split; [intros j Nj; rewrite O' by auto; apply append_other; auto|]. split.
        -- rewrite E', EE, FF, <- app_assoc. auto.
        -- intros Ek. apply AG; auto.
      * intros NE Ag. destruct (I2 NE) as [D' H]; [intros Ek; apply AG; auto|]. exists D'. replace (update_one other k D o) with (Ok (append D k o)); auto. symmetry. unfold update_one. destruct (dict_get Z.eqb (entries D k) (d_auid o)) eqn:G; [apply get_Some, key_of in G; contradiction|]. rewrite (copy_ok _ _ k) by auto. auto.
Qed.

(** the seven sets *)
Lemma same_keys : forall D D' k, D' k = D k -> keys D' k = keys D k /\ entries D' k = entries D k /\ forall other, lack D' other k = lack D other k.
Proof. intros D D' k E. unfold lack, keys, entries. rewrite E. auto. Qed.
Lemma sound_keyed : forall D, sound D -> keyed D.
Proof. intros D S k a d I. destruct (S k) as [_ F]. apply (F _ _ I). Qed.
Lemma kind_dec : forall a b : kind, {a = b} + {a <> b}.
Proof. decide equality. Qed.
(** the sets before [k] are merged and the others as they were *)
Definition stage (D other D1 : dictionary) (done : list kind) : Prop :=
  keyed D1 /\ forall k, (In k done -> entries D1 k = entries D k ++ lack D other k) /\ (~ In k done -> D1 k = D k).
Lemma lack_nodup : forall D other k, sound other -> NoDup (keys D k) -> NoDup (map fst (entries D k ++ lack D other k)).
Proof.
  intros D other k S N. destruct (S k) as [No _]. rewrite map_app. unfold lack. unfold keys in *. revert N. generalize (map fst (entries D k)) as l. intros l N. revert No. generalize (entries other k) as m.
  assert (G : forall m : list (Z * def), NoDup (map fst m) -> NoDup (map fst (filter (fun x => negb (existsb (Z.eqb (fst x)) l)) m)) /\ forall a, In a (map fst (filter (fun x => negb (existsb (Z.eqb (fst x)) l)) m)) -> In a (map fst m) /\ ~ In a l).
  { induction m as [|[a d] m IH]; intros No; cbn; [split; [constructor|intros ? []]|]. cbn in No. inversion No; subst. destruct (IH H2) as [I1 I2]. destruct (existsb (Z.eqb a) l) eqn:M; cbn.
    - split; auto. intros b Ib. apply I2 in Ib. tauto.
    - split; [constructor; auto; intros J; apply I2 in J; tauto|]. intros b [<-|Ib]; [split; auto; rewrite <- memb; congruence|]. apply I2 in Ib. tauto. }
  intros m No. destruct (G m No) as [G1 G2]. revert G1 G2. generalize (map fst (filter (fun x => negb (existsb (Z.eqb (fst x)) l)) m)). clear - N. intros q G1 G2. induction l as [|b l IH]; cbn; auto. inversion N; subst. constructor.
  - intros J. apply in_app_or in J as [J|J]; auto. apply G2 in J. apply (proj2 J). left. auto.
  - apply IH; auto. intros a Ia. apply G2 in Ia. split; [tauto|]. intros J. apply (proj2 Ia). right. auto.
Qed.
Lemma stage_step : forall D other D1 done k, sound D -> sound other -> stage D other D1 done -> ~ In k done ->
  (k = DOper \/ k = DCodec -> In DData done) -> (k = DOper -> In DParam done) ->
  (forall D2, update_all other k D1 (entries other k) = Ok D2 -> stage D other D2 (k :: done) /\ (k = DOper -> agrees D (entries other DOper))) /\
  (no_empty other -> (k = DOper -> agrees D (entries other DOper)) -> exists D2, update_all other k D1 (entries other k) = Ok D2).
Proof.
  intros D other D1 done k S So [K St] Nk Hd Hp. destruct (St k) as [_ Sk]. specialize (Sk Nk). destruct (same_keys _ _ _ Sk) as (Kk & Ek & Lk).
  assert (IN : forall j, In j done -> forall r, In r (keys other j) -> In r (keys D1 j)).
  { intros j Ij r Ir. destruct (kind_dec j j) as [_|]; [|congruence]. apply (proj1 (St j)) in Ij. unfold keys at 1. rewrite Ij, map_app. apply in_or_app. destruct (existsb (Z.eqb r) (keys D j)) eqn:M; [left; apply memb; auto|right].
    unfold keys in Ir. apply in_map_iff in Ir as ([a d] & <- & I). cbn [fst] in *. eapply key_of with (d := d). unfold lack. apply filter_In. split; auto. cbn [fst]. rewrite M. auto. }
  destruct (S k) as [N _]. destruct (So k) as [No _].
  assert (AG : k = DOper -> (agrees D1 (entries other k) <-> agrees D (entries other DOper))). { intros ->. unfold agrees. rewrite Ek. tauto. }
  destruct (all_spec other k (entries other k) D1 So K) as [A1 A2]; auto.
  { rewrite Kk. auto. } { split; auto. }
  split.
  - intros D2 H. destruct (A1 _ H) as (K2 & O2 & E2 & G2). split; [split; auto|intros Q; apply AG; auto].
    intros j. split.
    + intros [<-|Ij]; [rewrite E2, Ek, <- Lk; auto|]. assert (Nj : j <> k) by (intros ->; auto). specialize (O2 j Nj). destruct (same_keys _ _ _ O2) as (_ & E & _). rewrite E. apply St. auto.
    + intros Nj. rewrite O2 by (intros ->; apply Nj; left; auto). apply St. intros J. apply Nj. right. auto.
  - intros NE Q. apply A2; auto. intros X. apply AG; auto.
Qed.
Lemma stages : forall D other, sound D -> sound other ->
  (forall D', update D other = Ok D' -> stage D other D' (rev update_order) /\ agrees D (entries other DOper)) /\
  (no_empty other -> agrees D (entries other DOper) -> exists D', update D other = Ok D').
Proof.
  intros D other S So. assert (S0 : stage D other D []). { split; [apply sound_keyed; auto|]. intros k. split; [intros []|auto]. }
  unfold update, update_order. cbn [rev app update_kinds].
  destruct (stage_step D other D [] DData S So S0) as [A1 B1]; try solve [cbn; intuition congruence].
  split.
  - intros D' H.
    destruct (update_all other DData D _) as [D1|] eqn:E1; [|discriminate]. cbn [bind] in H. destruct (A1 _ eq_refl) as [S1 _].
    destruct (stage_step D other D1 _ DContainer S So S1) as [A2 _]; try solve [cbn; intuition congruence].
    destruct (update_all other DContainer D1 _) as [D2|] eqn:E2; [|discriminate]. cbn [bind] in H. destruct (A2 _ eq_refl) as [S2 _].
    destruct (stage_step D other D2 _ DCodec S So S2) as [A3 _]; try solve [cbn; intuition congruence].
    destruct (update_all other DCodec D2 _) as [D3|] eqn:E3; [|discriminate]. cbn [bind] in H. destruct (A3 _ eq_refl) as [S3 _].
    destruct (stage_step D other D3 _ DParam S So S3) as [A4 _]; try solve [cbn; intuition congruence].
    destruct (update_all other DParam D3 _) as [D4|] eqn:E4; [|discriminate]. cbn [bind] in H. destruct (A4 _ eq_refl) as [S4 _].
    destruct (stage_step D other D4 _ DOper S So S4) as [A5 _]; try solve [cbn; intuition congruence].
    destruct (update_all other DOper D4 _) as [D5|] eqn:E5; [|discriminate]. cbn [bind] in H. destruct (A5 _ eq_refl) as [S5 G].
    destruct (stage_step D other D5 _ DInter S So S5) as [A6 _]; try solve [cbn; intuition congruence].
    destruct (update_all other DInter D5 _) as [D6|] eqn:E6; [|discriminate]. cbn [bind] in H. destruct (A6 _ eq_refl) as [S6 _].
    destruct (stage_step D other D6 _ DTagged S So S6) as [A7 _]; try solve [cbn; intuition congruence].
    destruct (update_all other DTagged D6 _) as [D7|] eqn:E7; [|discriminate]. cbn [bind] in H. destruct (A7 _ eq_refl) as [S7 _].
    injection H as <-. split; [exact S7|apply G; auto].
  - intros NE AG.
    destruct B1 as [D1 E1]; auto. rewrite E1. cbn [bind]. destruct (A1 _ E1) as [S1 _].
    destruct (stage_step D other D1 _ DContainer S So S1) as [A2 B2]; try solve [cbn; intuition congruence]. destruct B2 as [D2 E2]; auto. rewrite E2. cbn [bind]. destruct (A2 _ E2) as [S2 _].
    destruct (stage_step D other D2 _ DCodec S So S2) as [A3 B3]; try solve [cbn; intuition congruence]. destruct B3 as [D3 E3]; auto. rewrite E3. cbn [bind]. destruct (A3 _ E3) as [S3 _].
    destruct (stage_step D other D3 _ DParam S So S3) as [A4 B4]; try solve [cbn; intuition congruence]. destruct B4 as [D4 E4]; auto. rewrite E4. cbn [bind]. destruct (A4 _ E4) as [S4 _].
    destruct (stage_step D other D4 _ DOper S So S4) as [A5 B5]; try solve [cbn; intuition congruence]. destruct B5 as [D5 E5]; auto. rewrite E5. cbn [bind]. destruct (A5 _ E5) as [S5 _].
    destruct (stage_step D other D5 _ DInter S So S5) as [A6 B6]; try solve [cbn; intuition congruence]. destruct B6 as [D6 E6]; auto. rewrite E6. cbn [bind]. destruct (A6 _ E6) as [S6 _].
    destruct (stage_step D other D6 _ DTagged S So S6) as [A7 B7]; try solve [cbn; intuition congruence]. destruct B7 as [D7 E7]; auto. rewrite E7. cbn [bind]. eauto.
Qed.

(** If it succeeds, each set is what was there followed by what was missing, in the other's order; the result is
    sound. The set of plugin definitions is not merged. *)
Theorem C69_update : forall D other D', sound D -> sound other -> update D other = Ok D' ->
  (forall k, k <> DPlugin -> exists l, lacks D other k l /\ entries D' k = entries D k ++ l) /\ D' DPlugin = D DPlugin /\ sound D'.
Proof.
  intros D other D' S So H. destruct (proj1 (stages D other S So) D' H) as [[K St] AG]. clear H AG.
  assert (M : forall k, k <> DPlugin -> entries D' k = entries D k ++ lack D other k). { intros k N. apply St. destruct k; cbn; tauto || congruence. }
  assert (P : D' DPlugin = D DPlugin). { apply St. cbn. intuition congruence. }
  split; [intros k N; exists (lack D other k); split; [apply lack_lacks|auto]|]. split; auto.
  assert (KI : forall k, k <> DPlugin -> forall r, In r (keys D k) \/ In r (keys other k) -> In r (keys D' k)).
  { intros k N r [I|I]; [unfold keys; rewrite M by auto; rewrite map_app; apply in_or_app; left; auto|].
    unfold keys at 1. rewrite M, map_app by auto. apply in_or_app. destruct (existsb (Z.eqb r) (keys D k)) eqn:X; [left; apply memb; auto|right]. unfold keys in I. apply in_map_iff in I as ([a d] & <- & I). cbn [fst] in *. eapply key_of with (d := d). unfold lack. apply filter_In. split; auto. cbn [fst]. rewrite X. auto. }
  intros k. destruct (S k) as [N F]. destruct (So k) as [No Fo]. destruct (kind_dec k DPlugin) as [->|Nk].
  - destruct (same_keys _ _ _ P) as (K1 & E1 & _). rewrite K1, E1. split; auto. intros a d I. destruct (F _ _ I) as (Q1 & Q2 & Q3 & Q4 & Q5 & Q6 & Q7). repeat (split; auto).
    + eapply Q3; eauto. + apply KI; [discriminate|]. left. eapply Q3; eauto. + intros l r El Ir. apply KI; [discriminate|]. left. eauto. + intros l r El Ir. apply KI; [discriminate|]. left. eauto.
  - split; [unfold keys; rewrite M by auto; apply lack_nodup; auto|]. rewrite M by auto. intros a d I. apply in_app_or in I as [I|I].
    + destruct (F _ _ I) as (Q1 & Q2 & Q3 & Q4 & Q5 & Q6 & Q7). repeat (split; auto).
      * eapply Q3; eauto. * apply KI; [discriminate|]. left. eapply Q3; eauto. * intros l r El Ir. apply KI; [discriminate|]. left. eauto. * intros l r El Ir. apply KI; [discriminate|]. left. eauto.
    + apply filter_In in I as [I _]. destruct (Fo _ _ I) as (Q1 & Q2 & Q3 & Q4 & Q5 & Q6 & Q7). repeat (split; auto).
      * eapply Q3; eauto. * apply KI; [discriminate|]. right. eapply Q3; eauto. * intros l r El Ir. apply KI; [discriminate|]. right. eauto. * intros l r El Ir. apply KI; [discriminate|]. right. eauto.
Qed.
Lemma agrees_iff : forall D other, agrees D (entries other DOper) <-> agree D other.
Proof.
  intros D other. unfold agrees, agree, found. split.
  - intros H d o Id Io E r l El Ir. specialize (H d o Id Io E r). unfold refs_of in H. rewrite El in H. specialize (H Ir). destruct (d_params d); [eauto|destruct H].
  - intros H d o Id Io E r Ir. unfold refs_of in *. destruct (d_params o) as [l|] eqn:El; [|destruct Ir]. destruct (H d o Id Io E r l El Ir) as (l' & -> & I'). auto.
Qed.
(** It succeeds if and only if each operation in both has the other's parameters. *)
Theorem C69_update_iff : forall D other, sound D -> sound other -> no_empty other -> ((exists D', update D other = Ok D') <-> agree D other).
Proof. intros D other S So NE. rewrite <- agrees_iff. destruct (stages D other S So) as [A B]. split; [intros [D' H]; apply (A D' H)|auto]. Qed.
(** A second time it changes nothing. *)
Theorem C69_update_again : forall D other D', sound D -> sound other -> update D other = Ok D' -> forall D'', update D' other = Ok D'' -> forall k, entries D'' k = entries D' k.
Proof.
  intros D other D' S So H D'' H'. destruct (C69_update _ _ _ S So H) as (M & P & S'). destruct (C69_update _ _ _ S' So H') as (M' & P' & _). intros k.
  destruct (kind_dec k DPlugin) as [->|N]; [unfold entries; rewrite P'; auto|]. destruct (M k N) as (l & (p & Hp & ->) & E). destruct (M' k N) as (l' & (p' & Hp' & ->) & E'). rewrite E'.
  replace (filter _ (entries other k)) with (@nil (Z * def)); [apply app_nil_r|]. symmetry. destruct (filter (fun x => p' (fst x)) (entries other k)) as [|[a d] q] eqn:X; auto. exfalso.
  assert (I : In (a, d) (filter (fun x => p' (fst x)) (entries other k))) by (rewrite X; left; auto). apply filter_In in I as [I Q]. cbn [fst] in Q. apply Hp' in Q. apply Q. unfold keys. rewrite E, map_app. apply in_or_app.
  destruct (in_dec Z.eq_dec a (keys D k)) as [J|J]; [left; auto|right]. eapply key_of with (d := d). apply filter_In. split; auto. apply Hp. auto.
Qed.

(** A copy leaves no reference without its definition: the data definition of an operation is copied with it if it is
    missing, any other that is missing is an error. *)
Theorem C69_copied : forall D other o D', keyed other -> copy_def D other o = Ok D' ->
  (forall r, d_data o = Some r -> In r (keys D' DData)) /\ (forall l r, d_params o = Some l -> In r l -> In r (keys D' DParam)) /\ (forall l r, d_codec o = Some l -> In r l -> In r (keys D' DData)) /\
  (forall j, j <> DData -> D' j = D j) /\ exists l, entries D' DData = entries D DData ++ l /\ forall a d, In (a, d) l -> d_data o = Some a /\ found other DData d /\ ~ In a (keys D DData).
Proof.
  intros D other o D' K H. unfold copy_def in H. destruct (copy_ref D other DData (d_data o)) as [D1|] eqn:E; [|discriminate]. cbn [bind] in H.
  destruct (copy_refs D1 DParam (d_params o)) as [u|] eqn:E1; [|discriminate]. cbn [bind] in H. destruct (copy_refs D1 DData (d_codec o)) as [v|] eqn:E2; [|discriminate]. injection H as <-.
  assert (R : forall j refs u, copy_refs D1 j refs = Ok u -> forall l r, refs = Some l -> In r l -> In r (keys D1 j)).
  { intros j refs w X l r -> I. unfold copy_refs in X. destruct (target D1 j) as [t|] eqn:T; [|discriminate]. cbn [bind] in X. apply target_keys in T. rewrite T in X. destruct (forallb _ l) eqn:F; [|discriminate]. rewrite forallb_forall in F. apply memb. auto. }
  assert (C : (forall r, d_data o = Some r -> In r (keys D1 DData)) /\ (forall j, j <> DData -> D1 j = D j) /\ exists l, entries D1 DData = entries D DData ++ l /\ forall a d, In (a, d) l -> d_data o = Some a /\ found other DData d /\ ~ In a (keys D DData)).
  { unfold copy_ref in E. destruct (d_data o) as [r|]; [|injection E as <-; split; [discriminate|]; split; auto; exists []; rewrite app_nil_r; split; auto; intros a d []].
    destruct (target D DData) as [t|] eqn:T; [|discriminate]. cbn [bind] in E. apply target_keys in T. rewrite T in E. destruct (existsb (Z.eqb r) (keys D DData)) eqn:M.
    - injection E as <-. apply memb in M. split; [intros x X; injection X as <-; auto|]. split; auto. exists []. rewrite app_nil_r. split; auto. intros a d [].
    - destruct (dict_get Z.eqb (entries other DData) r) as [x|] eqn:G; [|discriminate]. injection E as <-. apply get_Some in G. pose proof (K _ _ _ G) as Er. subst r. assert (N : ~ In (d_auid x) (keys D DData)) by (rewrite <- memb; congruence).
      pose proof (entries_append D DData x N) as EA. split; [intros y Y; injection Y as <-; unfold keys; rewrite EA, map_app; apply in_or_app; right; left; auto|]. split; [intros; apply append_other; auto|]. exists [(d_auid x, x)]. split; auto. intros a d [X|[]]. injection X as <- <-. auto. }
  destruct C as (C1 & C2 & C3). split; auto. split; [eapply R; eauto|]. split; [eapply R; eauto|]. split; auto.
Qed.

(** ** Where it is false *)
Definition none : dictionary := fun _ => None.
(** the dictionary with these definitions registered in turn *)
Definition with_defs (l : list def) : dictionary := fold_left (fun D d => append D (d_kind d) d) l none.
Definition dissolve (params : list Z) : def := Def DOper 50 (Some (codes "Dissolve")) (Some 1) (Some params) None.
Definition picture : def := Def DData 1 (Some (codes "DataDef_Picture")) None None None.
Definition sound_data : def := Def DData 2 (Some (codes "DataDef_Sound")) None None None.
Definition level : def := Def DParam 30 (Some (codes "Level")) None None None.
Definition speed : def := Def DParam 31 (Some (codes "Speed")) None None None.
Definition pcm : def := Def DCodec 40 (Some (codes "PCM")) None None (Some [2]).
(** the soundness of a small dictionary by computation *)
Definition nodupb (l : list Z) : bool := forallb (fun a => Nat.leb (List.length (filter (Z.eqb a) l)) 1) l.
Lemma nodupb_ok : forall l, nodupb l = true -> NoDup l.
Proof.
  intros l H. unfold nodupb in H. rewrite forallb_forall in H. assert (G : forall m, (forall a, In a m -> (List.length (filter (Z.eqb a) m) <= 1)%nat) -> NoDup m).
  { clear. induction m as [|b m IH]; intros G; constructor.
    - intros I. specialize (G b (or_introl eq_refl)). cbn in G. rewrite Z.eqb_refl in G. cbn in G. assert (X : In b (filter (Z.eqb b) m)) by (apply filter_In; split; auto; apply Z.eqb_refl). destruct (filter (Z.eqb b) m); [destruct X|]. cbn in G. lia.
    - apply IH. intros a I. specialize (G a (or_intror I)). cbn in G. destruct (a =? b); cbn in G; lia. }
  apply G. intros a I. apply H in I. apply Nat.leb_le in I. auto.
Qed.
Definition soundb (D : dictionary) : bool := forallb (fun k => nodupb (keys D k) && forallb (fun x => (fst x =? d_auid (snd x)) && kind_eqb (d_kind (snd x)) k
    && match d_data (snd x) with Some r => kind_eqb k DOper && existsb (Z.eqb r) (keys D DData) | None => true end
    && match d_params (snd x) with Some l => kind_eqb k DOper && forallb (fun r => existsb (Z.eqb r) (keys D DParam)) l | None => true end
    && match d_codec (snd x) with Some l => kind_eqb k DCodec && forallb (fun r => existsb (Z.eqb r) (keys D DData)) l | None => true end) (entries D k))
  [DData; DContainer; DCodec; DParam; DOper; DInter; DTagged; DPlugin].
Lemma soundb_ok : forall D, soundb D = true -> sound D.
Proof.
  intros D H k. unfold soundb in H. rewrite forallb_forall in H. specialize (H k). assert (I : In k [DData; DContainer; DCodec; DParam; DOper; DInter; DTagged; DPlugin]) by (destruct k; cbn; tauto). apply H in I. clear H.
  apply andb_true_iff in I as [N F]. split; [apply nodupb_ok; auto|]. rewrite forallb_forall in F. intros a d Id. apply F in Id. cbn [fst snd] in Id. repeat (apply andb_true_iff in Id as [Id ?]). apply Z.eqb_eq in Id. apply kind_eqb_spec in H2.
  split; auto. split; auto. split; [|split; [|split; [|split]]].
  - intros r E. rewrite E in H1. apply andb_true_iff in H1 as [A B]. apply kind_eqb_spec in A. apply memb in B. auto.
  - intros E. destruct (d_params d); [|congruence]. apply andb_true_iff in H0 as [A _]. apply kind_eqb_spec in A. auto.
  - intros l r E Ir. rewrite E in H0. apply andb_true_iff in H0 as [_ B]. rewrite forallb_forall in B. apply memb. auto.
  - intros E. destruct (d_codec d); [|congruence]. apply andb_true_iff in H as [A _]. apply kind_eqb_spec in A. auto.
  - intros l r E Ir. rewrite E in H. apply andb_true_iff in H as [_ B]. rewrite forallb_forall in B. apply memb. auto.
Qed.

(** The parameters of an operation that is in both are not merged: the update fails if one is missing. *)
Theorem C69_operation_refuted : exists D other, sound D /\ sound other /\ no_empty other /\ update D other = Err GenericError.
Proof.
  exists (with_defs [picture; level; dissolve [30]]), (with_defs [picture; level; speed; dissolve [30; 31]]). split; [apply soundb_ok; reflexivity|]. split; [apply soundb_ok; reflexivity|]. split; [|reflexivity].
  intros [] a d I; vm_compute in I; repeat (destruct I as [I|I]; [injection I as <- <-; vm_compute; split; discriminate|]); destruct I.
Qed.
(** An operation with an array of parameters that is empty cannot be merged into a dictionary that has no set of
    parameter definitions, though it refers to none. *)
Theorem C69_empty_refuted : exists D other, sound D /\ sound other /\ agree D other /\ update D other = Err KeyError.
Proof.
  exists (with_defs [picture]), (with_defs [picture; dissolve []]). split; [apply soundb_ok; reflexivity|]. split; [apply soundb_ok; reflexivity|]. split; [|reflexivity].
  intros d o Id. vm_compute in Id. destruct Id.
Qed.
(** A definition need not be found by its own name. *)
Theorem C69_name_refuted : forall lower, exists D d n x, sound D /\ found D DData d /\ d_name d = Some n /\ lookup_def lower D DData (ByName n) = Ok (Some x) /\ x <> d.
Proof.
  intros lower. exists (with_defs [picture; Def DData 3 (Some (codes "Picture")) None None None]), (Def DData 3 (Some (codes "Picture")) None None None), (codes "Picture"), picture.
  split; [apply soundb_ok; reflexivity|]. split; [right; left; reflexivity|]. split; auto. split; [|discriminate].
  apply C69_by_name. exists [], 1. eexists. split; [reflexivity|]. split; [apply matches_iff; reflexivity|]. intros y [].
Qed.
(** The empty name, and one that is only a prefix, name any definition without a name. *)
Theorem C69_unnamed_refuted : forall lower, exists D d, sound D /\ found D DData d /\ d_name d = None /\ lookup_def lower D DData (ByName []) = Ok (Some d) /\ lookup_def lower D DData (ByName (codes "ContainerDef_")) = Ok (Some d).
Proof.
  intros lower. set (d := Def DData 3 None None None None). exists (with_defs [d]), d. split; [apply soundb_ok; reflexivity|]. split; [left; reflexivity|]. split; auto.
  split; (apply C69_by_name; exists [], 3, []; split; [reflexivity|]; split; [apply matches_iff; reflexivity|]; intros y []).
Qed.
(** A plugin definition cannot be registered; any other definition can. *)
Theorem C69_plugin_refuted : forall D d, (exists D', register_def D d = Ok D') <-> d_kind d <> DPlugin.
Proof. intros D d. unfold register_def. destruct (d_kind d); split; try (intros; discriminate); try (intros; eexists; reflexivity); [intros [? H]; discriminate|congruence]. Qed.
(** An object of the right kind is returned though the dictionary does not have it. *)
Theorem C69_foreign_refuted : forall lower, exists D d, sound D /\ ~ found D DData d /\ lookup_def lower D DData (ByObject d) = Ok (Some d) /\ lookup_def lower D DData (ById (d_auid d)) = Ok None.
Proof. intros lower. exists none, picture. split; [apply soundb_ok; reflexivity|]. split; [intros []|]. split; reflexivity. Qed.

(** ** A case: lower case of ASCII *)
Definition low : list Z -> list Z := map (fun c => if (65 <=? c) && (c <=? 90) then c + 32 else c).
Definition mine : dictionary := with_defs [picture; level; speed; dissolve [30; 31]].
Definition theirs : dictionary := with_defs [sound_data; picture; pcm; speed; dissolve [31]; Def DOper 51 (Some (codes "Wipe")) (Some 2) (Some [31]) None].
Example C69_case : sound mine /\ sound theirs /\ no_empty theirs /\ agree mine theirs /\
  (exists D, update mine theirs = Ok D /\ map fst (entries D DData) = [1; 2] /\ map fst (entries D DCodec) = [40] /\ map fst (entries D DParam) = [30; 31] /\ map fst (entries D DOper) = [50; 51] /\
     lookup_def low D DData (ByName (codes "SOUND")) = Ok (Some sound_data) /\ lookup_def low D DOper (ById 50) = Ok (Some (dissolve [30; 31])) /\ lookup_def low D DOper (ByName (codes "Push")) = Err GenericError) /\
  (exists D, register_def mine sound_data = Ok D) /\ (exists D, copy_def mine theirs (Def DOper 51 (Some (codes "Wipe")) (Some 2) (Some [31]) None) = Ok D /\ map fst (entries D DData) = [1; 2]).
Proof.
  assert (NE : no_empty theirs) by (intros [] a d I; vm_compute in I; repeat (destruct I as [I|I]; [injection I as <- <-; vm_compute; split; discriminate|]); destruct I).
  assert (S1 : sound mine) by (apply soundb_ok; reflexivity). assert (S2 : sound theirs) by (apply soundb_ok; reflexivity).
  assert (U : exists D, update mine theirs = Ok D) by (eexists; reflexivity).
  split; auto. split; auto. split; auto. split; [apply C69_update_iff; auto|]. split; [eexists; split; [reflexivity|]; repeat split; reflexivity|]. split; eexists; [reflexivity|split; reflexivity].
Qed.

Print Assumptions C69_by_id.
Print Assumptions C69_by_name.
Print Assumptions C69_by_object.
Print Assumptions C69_register.
Print Assumptions C69_update.
Print Assumptions C69_update_iff.
Print Assumptions C69_update_again.
Print Assumptions C69_copied.
Print Assumptions C69_operation_refuted.
Print Assumptions C69_empty_refuted.
Print Assumptions C69_name_refuted.
Print Assumptions C69_unnamed_refuted.
Print Assumptions C69_plugin_refuted.
Print Assumptions C69_foreign_refuted.
