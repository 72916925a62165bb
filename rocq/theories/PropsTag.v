(** C71: a list of tagged values is a map from names to values. *)
From Verif Require Import Base BaseFacts Codec CodecFacts Text TypesModel TypesFacts TypesRound PropsTypes PropsTight.
From Coq Require Import ZArith List Bool String Lia.
From Verif Require Import TagModel.
Import ListNotations.
Open Scope Z_scope.

Section Props.
Variable lower : list Z -> list Z.
Variable set_iter : list val -> list val.
Variable lookup : list Z -> option typ.

(** ** Specification *)
(** the types that are chosen are the built-in ones *)
Definition usual : Prop :=
  (forall a, written "01100200-0000-0000-060e-2b3401040101" a -> lookup a = Some TString) /\
  (forall a, written "03010100-0000-0000-060e-2b3401040101" a -> lookup a = Some rational_t) /\
  (forall a, written "01010700-0000-0000-060e-2b3401040101" a -> lookup a = Some (TInt 4 true)).
(** text without NUL, 32-bit integers, fractions of such *)
Definition i32 (z : Z) : Prop := - 2 ^ 31 <= z < 2 ^ 31.
Inductive storable : val -> Prop :=
  | st_str : forall s, good_name s -> storable (VStr s)
  | st_int : forall z, i32 z -> storable (VInt z)
  | st_rat : forall n d, i32 n -> i32 d -> d <> 0 -> storable (VRat n d).
(** the names of the tags in order *)
Definition names (tags : list tag) : list (option (list Z)) := map (fun t => match t_name t with Some d => Some (decode_utf16le d) | None => None end) tags.
(** what the tag that is first of its name has *)
Definition first_of (tags : list tag) (key : option (list Z)) (t : tag) : Prop := exists l r, tags = l ++ t :: r /\ names [t] = [key] /\ ~ In key (names l).

Notation get := get. Notation getitem := (getitem lookup). Notation setitem := (setitem lower set_iter lookup). Notation assign := (assign lower set_iter lookup).

(** ** Facts *)
Lemma has_name_spec : forall key t, has_name key t = true <-> name_of t = key.
Proof.
  intros key t. unfold has_name. destruct (name_of t) as [n|], key as [k|]; try (split; [discriminate|congruence]); [|split; auto].
  rewrite zlist_eqb_spec. split; congruence.
Qed.
Lemma names_of : forall tags, names tags = map name_of tags.
Proof. reflexivity. Qed.
Lemma get_Some : forall tags key t, get tags key = Some t <-> first_of tags key t.
Proof.
  intros tags key t. unfold first_of. rewrite !names_of. split.
  - unfold TagModel.get. induction tags as [|x tags IH]; intros H; [discriminate|]. cbn [find] in H. destruct (has_name key x) eqn:E.
    + injection H as ->. apply has_name_spec in E. exists [], tags. cbn. rewrite E. auto.
    + destruct (IH H) as (l & r & -> & N & Nl). exists (x :: l), r. split; auto. split; auto. intros [X|X]; [|auto]. apply has_name_spec in X. congruence.
  - intros (l & r & -> & N & Nl). cbn in N. injection N as N. unfold TagModel.get. induction l as [|x l IH]; cbn [app find].
    + replace (has_name key t) with true; auto. symmetry. apply has_name_spec. auto.
    + destruct (has_name key x) eqn:E; [|apply IH; intros X; apply Nl; right; auto]. apply has_name_spec in E. exfalso. apply Nl. left. auto.
Qed.
Lemma contains_spec : forall tags key, contains tags key = true <-> In key (names tags).
Proof.
  intros tags key. rewrite names_of. unfold contains. destruct (get tags key) as [t|] eqn:E.
  - apply get_Some in E. destruct E as (l & r & -> & N & _). split; auto. intros _. rewrite map_app. apply in_or_app. right. left. injection N as N. exact N.
  - split; [discriminate|]. intros I. apply in_map_iff in I as (t & N & I). unfold TagModel.get in E. eapply find_none in E; eauto. apply has_name_spec in N. congruence.
Qed.
Lemma stores : forall v, usual -> storable v -> exists d, indirect_encode lower set_iter lookup None v = Ok d /\ indirect_decode lookup d = Ok v.
Proof.
  intros v (U1 & U2 & U3) S. destruct (C58_chosen lookup) as (_ & _ & Cs & Cr & Ci & _).
  assert (R : forall a t, indirect_auid lookup None v = Ok a -> lookup a = Some t -> List.length a = 16%nat -> okval lower t v -> exists d, indirect_encode lower set_iter lookup None v = Ok d /\ indirect_decode lookup d = Ok v).
  { intros a t A L La O. destruct (C58_indirect_roundtrip lower set_iter lookup None v a t A L La O) as (d & E & D & _). eauto. }
  assert (I4 : forall z, i32 z -> okval lower (TInt 4 true) (VInt z)). { intros z Hz. split; [unfold int_size; auto|]. exists z. split; auto. }
  destruct S as [s G|z Hz|n d Hn Hd Nd].
  - destruct (Cs s) as (a & A & W). eapply R; [exact A|apply U1; auto| |exists s; auto]. cbn in A. injection A as <-. reflexivity.
  - destruct (Ci z) as (a & A & W). eapply R; [exact A|apply U3; auto| |apply I4; auto]. cbn in A. injection A as <-. reflexivity.
  - destruct (Cr n d) as (a & A & W). eapply R; [exact A|apply U2; auto| |]. { cbn in A. injection A as <-. reflexivity. }
    exists n, d. split; auto. split; auto. split; [cbn; repeat constructor; cbn; intuition discriminate|]. split; auto. split; [eexists; reflexivity|]. split; [apply (I4 n); auto|]. split; auto. split; [eexists; reflexivity|]. split; [apply (I4 d); auto|exact I].
Qed.

Lemma set_first_spec : forall tags key v t, get tags key = Some t -> exists l r, tags = l ++ t :: r /\ ~ In key (names l) /\
  set_first lower set_iter lookup tags key v = (l ++ fst (set_value lower set_iter lookup t v) :: r, snd (set_value lower set_iter lookup t v)).
Proof.
  induction tags as [|x tags IH]; intros key v t H; [discriminate|]. unfold TagModel.get in H. cbn [find] in H. cbn [set_first]. destruct (has_name key x) eqn:E.
  - injection H as ->. exists [], tags. auto.
  - destruct (IH key v t H) as (l & r & -> & N & ->). exists (x :: l), r. split; auto. split; [|auto]. rewrite names_of in *. intros [X|X]; auto. apply has_name_spec in X. congruence.
Qed.
Lemma set_value_name : forall t v, t_name (fst (set_value lower set_iter lookup t v)) = t_name t.
Proof. intros t [v|]; cbn; auto. destruct (indirect_encode _ _ _ _ _); auto. Qed.
Lemma find_app_mid : forall (f : tag -> bool) l x y r, f x = false -> f y = false -> find f (l ++ x :: r) = find f (l ++ y :: r).
Proof. induction l as [|z l IH]; intros; cbn [app find]; [rewrite H, H0; auto|]. destruct (f z); auto. Qed.
Lemma find_app_end : forall (f : tag -> bool) l x, find f (l ++ [x]) = match find f l with Some y => Some y | None => if f x then Some x else None end.
Proof. induction l as [|z l IH]; intros; cbn [app find]; auto. destruct (f z); auto. Qed.

(** ** Theorems *)

(** What is there, and what is read: the value of the first tag of the name. *)
Theorem C71_read : forall tags key, (contains tags key = true <-> In key (names tags)) /\
  (forall t, first_of tags key t -> getitem tags key = match t_value t with None => Ok None | Some d => match indirect_decode lookup d with Ok v => Ok (Some v) | Err e => Err e end end) /\
  (~ In key (names tags) -> getitem tags key = Err IndexError).
Proof.
  intros tags key. split; [apply contains_spec|]. split.
  - intros t F. apply get_Some in F. unfold TagModel.getitem. rewrite F. unfold value_of. destruct (t_value t) as [d|]; auto.
  - intros N. rewrite <- contains_spec in N. unfold contains in N. unfold TagModel.getitem. destruct (get tags key); congruence.
Qed.
(** A value that is set is read again; every other name keeps its value; a new name goes to the end. *)
Theorem C71_set : forall tags k v, usual -> good_name k -> storable v -> exists tags', setitem tags (Some k) (Some v) = (tags', Ok tt) /\
  getitem tags' (Some k) = Ok (Some v) /\ (forall k', k' <> Some k -> getitem tags' k' = getitem tags k' /\ contains tags' k' = contains tags k') /\
  ((In (Some k) (names tags) /\ names tags' = names tags) \/ (~ In (Some k) (names tags) /\ names tags' = names tags ++ [Some k])).
Proof.
  intros tags k v U G S. destruct (stores v U S) as (d & E & D). destruct (string_roundtrip k G) as (b & Eb & _ & Db). unfold TagModel.setitem. destruct (contains tags (Some k)) eqn:C.
  - unfold contains in C. destruct (get tags (Some k)) as [t|] eqn:Gt; [|discriminate]. destruct (set_first_spec tags (Some k) (Some v) t Gt) as (l & r & Et & Nl & X). rewrite X. clear X. cbn [set_value]. rewrite E. cbn [fst snd].
    assert (Nt : name_of t = Some k). { apply get_Some in Gt as (l' & r' & _ & N & _). injection N as N. exact N. }
    set (t' := Tag (t_name t) (Some d)). assert (Nt' : name_of t' = Some k) by exact Nt. eexists. split; [reflexivity|]. split.
    { unfold TagModel.getitem. replace (get (l ++ t' :: r) (Some k)) with (Some t'); [cbn; rewrite D; auto|]. symmetry. apply get_Some. exists l, r. split; auto. split; auto. cbn. f_equal. exact Nt'. }
    split.
    { intros k' Nk. assert (F : get (l ++ t' :: r) k' = get tags k'). { subst tags. apply find_app_mid; apply not_true_iff_false; rewrite has_name_spec; congruence. } unfold TagModel.getitem, contains. rewrite F. auto. }
    left. split; [subst tags; rewrite names_of, map_app; apply in_or_app; right; left; auto|]. subst tags. unfold names. rewrite !map_app. reflexivity.
  - rewrite Eb. cbn [bind set_value]. rewrite E. cbn [fst snd t_name]. set (t' := Tag (Some b) (Some d)). assert (Nt' : name_of t' = Some k) by (cbn; congruence). eexists. split; [reflexivity|].
    assert (NI : ~ In (Some k) (names tags)) by (rewrite <- contains_spec; congruence). split.
    { unfold TagModel.getitem. replace (get (tags ++ [t']) (Some k)) with (Some t'); [cbn; rewrite D; auto|]. symmetry. apply get_Some. exists tags, []. split; auto. split; auto. cbn. f_equal. exact Nt'. }
    split.
    { intros k' Nk. assert (F : get (tags ++ [t']) k' = get tags k'). { unfold TagModel.get. rewrite find_app_end. destruct (find (has_name k') tags); auto. destruct (has_name k' t') eqn:H; auto. apply has_name_spec in H. congruence. } unfold TagModel.getitem, contains. rewrite F. auto. }
    right. split; auto. unfold names. rewrite map_app. f_equal. cbn [map]. f_equal. exact Nt'.
Qed.
(** Any number of assignments: the last one of each name is read, names are in the order they were first used in,
    each once. *)
Fixpoint last_of (l : list (list Z * val)) (k : list Z) (v : option val) : option val :=
  match l with [] => v | (k', v') :: l => last_of l k (if zlist_eqb k' k then Some v' else v) end.
Fixpoint used (l : list (list Z * val)) (seen : list (list Z)) : list (list Z) :=
  match l with [] => seen | (k, _) :: l => used l (if existsb (zlist_eqb k) seen then seen else seen ++ [k]) end.
Theorem C71_history : forall l, usual -> (forall k v, In (k, v) l -> good_name k /\ storable v) ->
  exists tags, assign [] l = (tags, Ok tt) /\ names tags = map Some (used l []) /\ NoDup (used l []) /\
    forall k, getitem tags (Some k) = match last_of l k None with Some v => Ok (Some v) | None => Err IndexError end.
Proof.
  intros l U. assert (G : forall l tags seen f, (forall k v, In (k, v) l -> good_name k /\ storable v) -> names tags = map Some seen -> NoDup seen ->
    (forall k, getitem tags (Some k) = match f k with Some v => Ok (Some v) | None => Err IndexError end) ->
    exists tags', assign tags l = (tags', Ok tt) /\ names tags' = map Some (used l seen) /\ NoDup (used l seen) /\ forall k, getitem tags' (Some k) = match last_of l k (f k) with Some v => Ok (Some v) | None => Err IndexError end).
  { clear l. induction l as [|[k v] l IH]; intros tags seen f H N ND F; [exists tags; auto|]. destruct (H k v (or_introl eq_refl)) as [Gk Sv]. destruct (C71_set tags k v U Gk Sv) as (tags1 & E & R & O & P).
    cbn [TagModel.assign used last_of]. rewrite E.
    assert (M : existsb (zlist_eqb k) seen = true <-> In (Some k) (names tags)).
    { rewrite N. rewrite existsb_exists. split; [intros (x & I & X); apply zlist_eqb_spec in X; subst x; apply in_map; auto|intros I; apply in_map_iff in I as (x & X & I); injection X as ->; exists k; split; auto; apply zlist_eqb_spec; auto]. }
    destruct (IH tags1 (if existsb (zlist_eqb k) seen then seen else seen ++ [k]) (fun k' => if zlist_eqb k k' then Some v else f k')) as (tags' & A & B & C & D).
    - intros k' v' I. apply H. right. auto.
    - destruct P as [[I ->]|[I ->]]; [apply M in I; rewrite I; auto|]. destruct (existsb (zlist_eqb k) seen); [exfalso; apply I, M; auto|]. rewrite N, map_app. auto.
    - destruct (existsb (zlist_eqb k) seen) eqn:X; auto. assert (Ns : ~ In k seen). { intros I. assert (Y : false = true) by (apply M; rewrite N; apply in_map; auto). discriminate. }
      clear - ND Ns. induction seen as [|a seen IH]; cbn; [constructor; auto; constructor|]. inversion ND; subst. constructor; [|apply IH; auto; intros J; apply Ns; right; auto]. intros J. apply in_app_or in J as [J|[J|[]]]; auto. apply Ns. left. auto.
    - intros k'. destruct (zlist_eqb k k') eqn:X; [apply zlist_eqb_spec in X; subst k'; auto|]. destruct (O (Some k')) as [-> _]; auto. intros Y. injection Y as ->. rewrite (proj2 (zlist_eqb_spec k k) eq_refl) in X. discriminate.
    - exists tags'. auto. }
  intros H. destruct (G l [] [] (fun _ => None) H) as (tags & A & B & C & D); auto; [constructor|]. exists tags. auto.
Qed.
(** A value that cannot be stored leaves a name that is there as it was. *)
Theorem C71_refused : forall tags k v e, In k (names tags) -> indirect_encode lower set_iter lookup None v = Err e -> setitem tags k (Some v) = (tags, Err e).
Proof.
  intros tags k v e I E. apply contains_spec in I. unfold TagModel.setitem. rewrite I. unfold contains in I. destruct (get tags k) as [t|] eqn:G; [|discriminate]. destruct (set_first_spec tags k (Some v) t G) as (l & r & -> & _ & X). rewrite X. cbn [set_value]. rewrite E. auto.
Qed.
(** values of other types are refused *)
Theorem C71_types : forall v, (forall s, v <> VStr s) -> (forall n d, v <> VRat n d) -> (forall z, v <> VInt z) -> (forall b, v <> VBool b) -> indirect_encode lower set_iter lookup None v = Err NotImplemented.
Proof. intros v A B C D. unfold indirect_encode. destruct (C58_chosen lookup) as (_ & _ & _ & _ & _ & _ & X). rewrite X by auto. auto. Qed.
(** A name that was not there is there after an assignment that failed. *)
Theorem C71_half_refuted : forall tags k v e, good_name k -> ~ In (Some k) (names tags) -> indirect_encode lower set_iter lookup None v = Err e ->
  exists tags', setitem tags (Some k) (Some v) = (tags', Err e) /\ contains tags' (Some k) = true /\ getitem tags' (Some k) = Ok None /\ getitem tags (Some k) = Err IndexError.
Proof.
  intros tags k v e G N E. destruct (string_roundtrip k G) as (b & Eb & _ & Db). pose proof (proj2 (proj2 (C71_read tags (Some k))) N) as R. rewrite <- contains_spec in N. apply not_true_iff_false in N. unfold TagModel.setitem. rewrite N, Eb. cbn [bind set_value]. rewrite E. cbn [fst snd].
  eexists. split; [reflexivity|]. set (t' := Tag (Some b) None). assert (Nt' : name_of t' = Some k) by (cbn; congruence). assert (F : get (tags ++ [t']) (Some k) = Some t').
  { unfold contains in N. unfold TagModel.get in *. rewrite find_app_end. destruct (find (has_name (Some k)) tags); [discriminate|]. replace (has_name (Some k) t') with true; auto. symmetry. apply has_name_spec. auto. }
  unfold contains, TagModel.getitem. rewrite F. auto.
Qed.
(** Setting None takes the value away, not the name. *)
Theorem C71_none_refuted : forall tags k, In k (names tags) -> exists tags', setitem tags k None = (tags', Ok tt) /\ contains tags' k = true /\ getitem tags' k = Ok None.
Proof.
  intros tags k I. apply contains_spec in I. unfold TagModel.setitem. rewrite I. unfold contains in I. destruct (get tags k) as [t|] eqn:G; [|discriminate]. destruct (set_first_spec tags k None t G) as (l & r & E & Nl & X). rewrite X. cbn [set_value fst snd]. eexists. split; [reflexivity|].
  assert (F : get (l ++ Tag (t_name t) None :: r) k = Some (Tag (t_name t) None)). { apply get_Some in G as (l' & r' & _ & N & _). apply get_Some. exists l, r. auto. }
  unfold contains, TagModel.getitem. rewrite F. auto.
Qed.
End Props.

(** A name with NUL in it is cut: it is not found again and each assignment adds another. *)
Definition ex_lookup (a : list Z) : option typ :=
  if zlist_eqb a [0;2;16;1; 0;0; 0;0; 6;14;43;52;1;4;1;1] then Some TString else if zlist_eqb a [0;1;1;3; 0;0; 0;0; 6;14;43;52;1;4;1;1] then Some rational_t
  else if zlist_eqb a [0;7;1;1; 0;0; 0;0; 6;14;43;52;1;4;1;1] then Some (TInt 4 true) else None.
Lemma ex_usual : usual ex_lookup.
Proof. split; [|split]; intros a H; vm_compute in H; injection H as <-; reflexivity. Qed.
Definition idl (s : list Z) := s.
Definition idv (l : list val) := l.
Theorem C71_nul_refuted : exists k v tags1 tags2, setitem idl idv ex_lookup [] (Some k) (Some v) = (tags1, Ok tt) /\ getitem ex_lookup tags1 (Some k) = Err IndexError /\
  setitem idl idv ex_lookup tags1 (Some k) (Some v) = (tags2, Ok tt) /\ List.length tags2 = 2%nat.
Proof. exists [97; 0; 98], (VInt 7). do 2 eexists. split; [reflexivity|]. split; [reflexivity|]. split; reflexivity. Qed.
(** Appending does not look at the names: what is appended under a name that is there is not found. *)
Theorem C71_append_refuted : exists tags t k, name_of t = Some k /\ In (Some k) (names tags) /\ value_of ex_lookup t <> getitem ex_lookup (tags ++ [t]) (Some k).
Proof.
  exists (fst (setitem idl idv ex_lookup [] (Some (codes "a"%string)) (Some (VInt 1)))). exists (Tag (Some [97; 0; 0; 0]) (Some ([76; 0;7;1;1; 0;0; 0;0; 6;14;43;52;1;4;1;1; 2; 0; 0; 0]))), (codes "a"%string).
  split; [reflexivity|]. split; [left; reflexivity|]. vm_compute. discriminate.
Qed.
(** A case *)
Example C71_case : usual ex_lookup /\ good_name (codes "Scene"%string) /\ storable (VInt (-5)) /\ storable (VStr (codes "A1"%string)) /\ storable (VRat 24 1) /\
  (let r := assign idl idv ex_lookup [] [(codes "Scene"%string, VInt (-5)); (codes "Take"%string, VStr (codes "A1"%string)); (codes "Scene"%string, VRat 24 1)] in
   snd r = Ok tt /\ items ex_lookup (fst r) = Ok [(Some (codes "Scene"%string), Some (VRat 24 1)); (Some (codes "Take"%string), Some (VStr (codes "A1"%string)))] /\
   setitem idl idv ex_lookup (fst r) (Some (codes "Scene"%string)) (Some (VSeq [])) = (fst r, Err NotImplemented)).
Proof.
  assert (T : forall s, forallb (fun c => (0 <? c) && (c <? 128)) s = true -> good_name s).
  { intros s H. rewrite forallb_forall in H. split; [apply Forall_forall; intros c I; apply H in I; unfold scalar; lia|intros I; apply H in I; lia]. }
  split; [apply ex_usual|]. split; [apply T; reflexivity|]. split; [constructor; unfold i32; lia|]. split; [constructor; apply T; reflexivity|]. split; [constructor; unfold i32; lia|]. cbn zeta. split; [reflexivity|]. split; reflexivity.
Qed.

Print Assumptions C71_read.
Print Assumptions C71_set.
Print Assumptions C71_history.
Print Assumptions C71_refused.
Print Assumptions C71_types.
Print Assumptions C71_half_refuted.
Print Assumptions C71_none_refuted.
Print Assumptions C71_nul_refuted.
Print Assumptions C71_append_refuted.
