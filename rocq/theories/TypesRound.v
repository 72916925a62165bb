(** Which values a type can hold, and that encode and decode are inverse on them. *)
From Verif Require Import Base BaseFacts Codec CodecFacts Text TextFacts TypesModel IdsFacts TypesFacts.
From Coq Require Import ZArith List Bool Lia String.
Import ListNotations.
Open Scope Z_scope.

Section TypInd.
Variable P : typ -> Prop.
Hypothesis HInt : forall s g, P (TInt s g).
Hypothesis HEnum : forall b el n v, P el -> P (TEnum b el n v).
Hypothesis HFixed : forall el c, P el -> P (TFixed el c).
Hypothesis HVar : forall el, P el -> P (TVar el).
Hypothesis HSet : forall el, P el -> P (TSet el).
Hypothesis HString : P TString.
Hypothesis HRec : forall k fs, Forall (fun f => P (snd f)) fs -> P (TRec k fs).
Hypothesis HRename : forall t, P t -> P (TRename t).
Hypothesis HExt : forall n v, P (TExtEnum n v).
Hypothesis HChar : forall b, P (TChar b).
Fixpoint typ_ind' (t : typ) : P t :=
  match t with
  | TInt s g => HInt s g
  | TEnum b el n v => HEnum b el n v (typ_ind' el)
  | TFixed el c => HFixed el c (typ_ind' el)
  | TVar el => HVar el (typ_ind' el)
  | TSet el => HSet el (typ_ind' el)
  | TString => HString
  | TRec k fs => HRec k fs ((fix go (l : list (list Z * typ)) : Forall (fun f => P (snd f)) l :=
      match l with [] => Forall_nil _ | f :: r => Forall_cons f (typ_ind' (snd f)) (go r) end) fs)
  | TRename t => HRename t (typ_ind' t)
  | TExtEnum n v => HExt n v
  | TChar b => HChar b
  end.
End TypInd.

Section Round.
Variable lower : list Z -> list Z.
Variable set_iter : list val -> list val.
Notation enc := (encode lower set_iter).
Notation dec := (decode).

(** ** The local functions of the model by name *)
Fixpoint sizes (fs : list (list Z * typ)) : result Z :=
  match fs with [] => Ok 0 | (_, ft) :: r => do n <- byte_size ft ;; do m <- sizes r ;; Ok (n + m) end.
Definition enc_fields (dd : list (list Z * val)) := fix go (fs : list (list Z * typ)) : result (list Z) :=
  match fs with
  | [] => Ok []
  | (key, ft) :: r =>
    match dget dd key with
    | Some fv => do d <- enc ft fv ;; do e <- go r ;; Ok (d ++ e)
    | None => Err KeyError
    end
  end.
Definition dec_fields (data : list Z) := fix go (fs : list (list Z * typ)) (start : Z) (acc : list (list Z * val)) : result (list (list Z * val)) :=
  match fs with
  | [] => Ok acc
  | (key, ft) :: r =>
    do bs <- byte_size ft ;; do v <- dec ft (slice start (start + bs) data) ;;
    go r (start + bs) (dict_set zlist_eqb acc key v)
  end.
Lemma enc_fields_cons : forall dd key ft r, enc_fields dd ((key, ft) :: r) =
  match dget dd key with Some fv => do d <- enc ft fv ;; do e <- enc_fields dd r ;; Ok (d ++ e) | None => Err KeyError end.
Proof. reflexivity. Qed.
Lemma dec_fields_cons : forall data key ft r start acc, dec_fields data ((key, ft) :: r) start acc =
  (do bs <- byte_size ft ;; do v <- dec ft (slice start (start + bs) data) ;; dec_fields data r (start + bs) (dict_set zlist_eqb acc key v)).
Proof. reflexivity. Qed.

Lemma byte_size_rec : forall k fs, byte_size (TRec k fs) = (do n <- sizes fs ;; guard (negb (n =? 0)) else AssertionError ;; Ok n).
Proof. reflexivity. Qed.
Lemma dec_rec : forall k fs data, k <> RMob -> k <> RAuid -> dec (TRec k fs) data = (do d <- dec_fields data fs 0 [] ;; record_value k d).
Proof. intros k fs data H1 H2. destruct k; try congruence; reflexivity. Qed.
Lemma enc_rec : forall k fs v, k <> RMob -> k <> RAuid -> (k = RStamp -> forall y m d h mi s us, v <> VDateTime y m d h mi s us) ->
  enc (TRec k fs) v = (do src <- record_source k v ;; match src with VDict dd => enc_fields dd fs | _ => Err TypeError end).
Proof. intros k fs v H1 H2 H3. destruct k, v; try congruence; try reflexivity. exfalso. eapply H3; eauto. Qed.
Definition plain_el (el : typ) : Prop := match el with TInt _ _ | TChar _ => False | _ => True end.
Lemma enc_var : forall el l, plain_el el -> enc (TVar el) (VSeq l) = encode_items (enc el) l.
Proof. intros el l H. destruct el; try destruct H; reflexivity. Qed.
Lemma dec_var : forall el data, plain_el el -> dec (TVar el) data =
  (do bs <- byte_size el ;; guard (negb (bs =? 0)) else ZeroDivision ;;
   do l <- decode_chunks (dec el) (Z.to_nat (zlen data / bs)) bs 0 data ;; Ok (VSeq l)).
Proof. intros el data H. destruct el; try destruct H; reflexivity. Qed.
Lemma dec_fixed : forall el count data, (forall s g, el <> TInt s g) -> dec (TFixed el count) data =
  (do bs <- byte_size el ;; do l <- decode_chunks (dec el) (Z.to_nat count) bs 0 data ;; Ok (VSeq l)).
Proof. intros el count data H. destruct el; try reflexivity. exfalso. eapply H; eauto. Qed.

(** ** The values of a type. Arrays of fixed size and sets are treated apart: the first are not
    stored faithfully, the second only up to order. *)
Fixpoint okval (t : typ) (v : val) : Prop :=
  match t with
  | TInt size sg => int_size size /\ exists z, v = VInt z /\ int_range size sg z
  | TEnum true el _ _ => byte_size el = Ok 1 /\ exists b, v = VBool b
  | TEnum false el names values => exists es z s, enum_elements names values = Ok es /\ NoDup (map snd es) /\
      In (z, s) es /\ v = VStr s /\ okval el (VInt z)
  | TVar (TChar named) => named = true /\ exists l, v = VSeq (map VStr l) /\ Forall good_name l
  | TVar (TInt size sg) => int_size size /\ exists l, v = VSeq (map VInt l) /\ Forall (int_range size sg) l
  | TVar el => exists l n, v = VSeq l /\ Forall (okval el) l /\ byte_size el = Ok n /\ 0 < n
  | TString => exists s, v = VStr s /\ good_name s
  | TRec k fields =>
    let fix fields_ok (fs : list (list Z * typ)) (d : list (list Z * val)) : Prop :=
      match fs, d with
      | [], [] => True
      | (key, ft) :: r, (key', fv) :: d' => key = key' /\ (exists n, byte_size ft = Ok n) /\ okval ft fv /\ fields_ok r d'
      | _, _ => False
      end in
    let ok d := NoDup (map fst d) /\ fields_ok fields d in
    match k with
    | RMob => byte_size t = Ok 32 /\ exists m, v = VMob m /\ bytes m /\ List.length m = 32%nat
    | RAuid => byte_size t = Ok 16 /\ exists a, v = VAuid a /\ bytes a /\ List.length a = 16%nat
    | RPlain => exists d, v = VDict d /\ ok d
    | RDate => exists y m dd, v = VDate y m dd /\ date_ok y m dd = true /\
        ok [(codes "year", VInt y); (codes "month", VInt m); (codes "day", VInt dd)]
    | RTime => exists h mi s, v = VTime h mi s 0 /\ time_ok h mi s 0 = true /\
        ok [(codes "hour", VInt h); (codes "minute", VInt mi); (codes "second", VInt s); (codes "fraction", VInt 0)]
    | RStamp => exists y m dd h mi s, v = VDateTime y m dd h mi s 0 /\
        ok [(codes "date", VDate y m dd); (codes "time", VTime h mi s 0)]
    | RRat => exists n dd, v = VRat n dd /\ dd <> 0 /\ ok [(codes "Numerator", VInt n); (codes "Denominator", VInt dd)]
    end
  | TRename t => okval t v
  | TExtEnum names values => exists es a s, ext_elements names values = Ok es /\ NoDup (map (fun x => lower (snd x)) es) /\
      In (a, s) es /\ v = VStr s /\ bytes a /\ List.length a = 16%nat
  | TFixed _ _ | TSet _ | TChar _ => False
  end.

Fixpoint fields_ok (fs : list (list Z * typ)) (d : list (list Z * val)) : Prop :=
  match fs, d with
  | [], [] => True
  | (key, ft) :: r, (key', fv) :: d' => key = key' /\ (exists n, byte_size ft = Ok n) /\ okval ft fv /\ fields_ok r d'
  | _, _ => False
  end.

Definition round (t : typ) (v : val) : Prop :=
  exists d, enc t v = Ok d /\ bytes d /\ dec t d = Ok v /\ (forall n, byte_size t = Ok n -> zlen d = n).

Lemma fields_keys : forall fs d, fields_ok fs d -> map fst fs = map fst d.
Proof. induction fs as [|[k ft] fs IH]; intros [|[k' v] d] H; cbn in *; try tauto. destruct H as (-> & _ & _ & H). rewrite (IH d); auto. Qed.

(** records: [dd] is any dictionary that has the fields of [d] *)
Lemma fields_round : forall fs d, Forall (fun f => forall v, okval (snd f) v -> round (snd f) v) fs -> fields_ok fs d ->
  forall dd, (forall k v, In (k, v) d -> dget dd k = Some v) ->
  exists e n, enc_fields dd fs = Ok e /\ bytes e /\ sizes fs = Ok n /\ zlen e = n /\
    forall pre acc, NoDup (map fst (acc ++ d)) -> forall post, dec_fields (pre ++ e ++ post) fs (zlen pre) acc = Ok (acc ++ d).
Proof.
  induction fs as [|[k ft] fs IH]; intros d HF Hd dd Hdd.
  - destruct d; [|destruct Hd]. exists [], 0. repeat split; auto. constructor. intros. cbn. rewrite app_nil_r. auto.
  - destruct d as [|[k' v] d]; [destruct Hd|]. cbn in Hd. destruct Hd as (<- & [n Hn] & Hv & Hd). inversion HF as [|? ? HF1 HF2]; subst.
    destruct (HF1 v Hv) as (e1 & E1 & B1 & D1 & L1). cbn [snd] in *.
    destruct (IH d HF2 Hd dd) as (e & m & E & B & Es & L & D). { intros; apply Hdd; right; auto. }
    exists (e1 ++ e), (n + m). cbn [sizes]. rewrite enc_fields_cons. rewrite (Hdd k v) by (left; auto). rewrite E1, E, Hn, Es. cbn [bind].
    split; auto. split; [apply bytes_app; auto|]. split; auto. split; [rewrite zlen_app; rewrite (L1 n) by auto; lia|].
    intros pre acc N post. rewrite dec_fields_cons. rewrite Hn. cbn [bind]. rewrite <- (L1 n) by auto.
    replace (slice (zlen pre) (zlen pre + zlen e1) (pre ++ (e1 ++ e) ++ post)) with e1.
    + rewrite D1. cbn [bind]. rewrite (dict_set_new zlist_eqb zlist_eqb_eq).
      * specialize (D (pre ++ e1) (acc ++ [(k, v)])). rewrite <- app_assoc in D. specialize (D N post). rewrite zlen_app in D.
        rewrite <- !app_assoc in D. cbn [app] in D. rewrite <- !app_assoc. exact D.
      * rewrite map_app in N. cbn [map fst] in N. apply NoDup_remove_2 in N. intros X. apply N. apply in_or_app. auto.
    + unfold slice. rewrite zdrop_app_exact. replace (zlen pre + zlen e1 - zlen pre) with (zlen e1) by lia. rewrite <- app_assoc. rewrite ztake_app_exact. auto.
Qed.

Lemma fields_round0 : forall fs d, Forall (fun f => forall v, okval (snd f) v -> round (snd f) v) fs -> fields_ok fs d -> NoDup (map fst d) ->
  exists e, enc_fields d fs = Ok e /\ bytes e /\ (forall k n, byte_size (TRec k fs) = Ok n -> zlen e = n) /\ dec_fields e fs 0 [] = Ok d.
Proof.
  intros fs d HF Hd N. destruct (fields_round fs d HF Hd d) as (e & n & E & B & Es & L & D).
  { intros k v H. apply dict_get_in; auto. apply zlist_eqb_eq. }
  exists e. split; auto. split; auto. split.
  - intros k m Hm. rewrite byte_size_rec, Es in Hm. cbn [bind] in Hm. destruct (negb (n =? 0)); [injection Hm as <-; auto|discriminate].
  - specialize (D [] [] N []). rewrite app_nil_r in D. exact D.
Qed.

Lemma items_round : forall el n, byte_size el = Ok n -> 0 < n -> forall l, Forall (fun v => round el v) l ->
  exists e, encode_items (enc el) l = Ok e /\ bytes e /\ zlen e = n * zlen l /\
    forall pre post, decode_chunks (dec el) (List.length l) n (zlen pre) (pre ++ e ++ post) = Ok l.
Proof.
  intros el n Hn Hp l H. induction H as [|v l (e1 & E1 & B1 & D1 & L1) _ (e & E & B & L & D)].
  - exists []. repeat split; auto. constructor. cbn. lia.
  - exists (e1 ++ e). cbn [encode_items]. rewrite E1, E. cbn [bind]. split; auto. split; [apply bytes_app; auto|].
    split; [rewrite zlen_app, zlen_cons, (L1 n) by auto; lia|]. intros pre post. cbn [List.length decode_chunks].
    replace (slice (zlen pre) (zlen pre + n) (pre ++ (e1 ++ e) ++ post)) with e1.
    + rewrite D1. cbn [bind]. specialize (D (pre ++ e1) post). rewrite zlen_app, (L1 n) in D by auto. rewrite <- !app_assoc in D. rewrite <- !app_assoc. rewrite D. auto.
    + unfold slice. rewrite zdrop_app_exact. replace (zlen pre + n - zlen pre) with (zlen e1) by (rewrite (L1 n) by auto; lia). rewrite <- app_assoc. rewrite ztake_app_exact. auto.
Qed.

Lemma var_round : forall el n l, plain_el el -> byte_size el = Ok n -> 0 < n -> Forall (fun v => round el v) l -> round (TVar el) (VSeq l).
Proof.
  intros el n l Hp Hn Pn H. destruct (items_round el n Hn Pn l H) as (e & E & B & L & D). exists e. rewrite enc_var, dec_var by auto. split; auto. split; auto.
  rewrite Hn. cbn [bind]. replace (n =? 0) with false by lia. cbn [negb]. rewrite L, Z.mul_comm, Z.div_mul by lia. unfold zlen at 1. rewrite Nat2Z.id.
  specialize (D [] []). rewrite app_nil_r in D. cbn [app] in D. change (zlen (@nil Z)) with 0 in D. rewrite D. split; auto. intros m X. discriminate.
Qed.

Lemma ext_find : forall (es : list (list Z * list Z)) a s, NoDup (map (fun x => lower (snd x)) es) -> In (a, s) es ->
  find (fun x => zlist_eqb (lower (snd x)) (lower s)) es = Some (a, s).
Proof.
  induction es as [|[a' s'] es IH]; intros a s N I; [destruct I|]. cbn [find snd]. cbn in N. inversion N; subst. destruct I as [I|I].
  - injection I as -> ->. rewrite (proj2 (zlist_eqb_eq (lower s) (lower s))) by auto. auto.
  - destruct (zlist_eqb (lower s') (lower s)) eqn:E; [|apply IH; auto]. apply zlist_eqb_eq in E. exfalso. apply H1. rewrite E.
    apply in_map_iff. exists (a, s). auto.
Qed.
Lemma ext_elements_keys : forall ns vs es, ext_elements ns vs = Ok es -> NoDup (map fst es).
Proof.
  intros ns vs es H. unfold ext_elements in H. destruct (iter_utf16_array ns); [|discriminate]. cbn [bind] in H. destruct (iter_auid_array vs); [|discriminate].
  cbn [bind] in H. injection H as <-. apply dict_zip_keys. apply zlist_eqb_eq.
Qed.

Lemma time_value : forall h mi s us, let d := [(codes "hour", VInt h); (codes "minute", VInt mi); (codes "second", VInt s); (codes "fraction", VInt us)] in
  record_value RTime d = if time_ok h mi s us then Ok (VTime h mi s us) else Ok (VDict d).
Proof. reflexivity. Qed.
Lemma date_value : forall y m dd, let d := [(codes "year", VInt y); (codes "month", VInt m); (codes "day", VInt dd)] in
  record_value RDate d = if date_ok y m dd then Ok (VDate y m dd) else Ok (VDict d).
Proof. reflexivity. Qed.
Lemma rat_value : forall n dd, record_value RRat [(codes "Numerator", VInt n); (codes "Denominator", VInt dd)] =
  (do r <- rat_new (n, 1) (dd, 1) ;; Ok (VRat (fst r) (snd r))).
Proof. reflexivity. Qed.

Lemma stamp_fields : forall y m dd h mi s us t0 t1,
  enc_fields [(codes "date", VDate y m dd); (codes "time", VTime h mi s us)] [(codes "date", t0); (codes "time", t1)] =
  enc (TRec RStamp [(codes "date", t0); (codes "time", t1)]) (VDateTime y m dd h mi s us).
Proof.
  intros. transitivity (do a <- enc t0 (VDate y m dd) ;; do b <- (do c <- enc t1 (VTime h mi s us) ;; Ok (c ++ [])) ;; Ok (a ++ b)); [reflexivity|].
  transitivity (do a <- enc t0 (VDate y m dd) ;; do b <- enc t1 (VTime h mi s us) ;; Ok (a ++ b)); [|reflexivity].
  destruct (enc t0 (VDate y m dd)); cbn [bind]; auto. destruct (enc t1 (VTime h mi s us)); cbn [bind]; auto. rewrite app_nil_r. auto.
Qed.

Theorem value_roundtrip : forall t v, okval t v -> round t v.
Proof.
  induction t using typ_ind'; intros w Hv.
  - destruct Hv as (Hs & z & -> & Hz). destruct (int_roundtrip s g z Hs Hz) as (d & E & B & L & D). exists d. cbn. split; auto. split; auto. split; auto. congruence.
  - destruct b.
    + destruct Hv as (Hs & x & ->). exists [if x then 1 else 0]. cbn [encode decode byte_size truthy]. split; [destruct x; auto|].
      split; [destruct x; repeat constructor; unfold is_byte; lia|]. split; [destruct x; auto|]. intros m Hm. rewrite Hs in Hm. injection Hm as <-. auto.
    + destruct Hv as (es & z & s & He & N & I & -> & Hz). destruct (IHt _ Hz) as (d & E & B & D & L). exists d. cbn [encode decode byte_size].
      rewrite He. cbn [bind]. rewrite (find_name es z s N I). split; auto. split; auto. rewrite D. cbn [bind].
      rewrite (dict_get_in Z.eqb Z.eqb_eq es z s); auto. eapply enum_elements_keys; eauto.
  - destruct Hv.
  - destruct t as [s g| | | | | | | | |named]; try (destruct Hv as (l & m & -> & Hl & Hm & Pm); apply (var_round _ m); auto; cbn; auto; eapply Forall_impl; [|apply Hl]; auto).
    + destruct Hv as (Hs & l & -> & Hl). destruct (ints_roundtrip s g l Hs Hl) as (d & E & B & D). exists d. cbn [encode decode]. rewrite int_fmt_ok by auto. cbn [bind].
      rewrite E, D. repeat split; auto. intros m X. discriminate.
    + destruct Hv as (-> & l & -> & Hl). destruct (names_roundtrip l Hl) as (d & E & B & D). exists d. cbn [encode decode]. rewrite encode_array_vals, E, D. repeat split; auto.
      intros m X. discriminate.
  - destruct Hv.
  - destruct Hv as (s & -> & Hs). destruct (string_roundtrip s Hs) as (d & E & B & D). exists d. cbn. rewrite D. repeat split; auto. intros m X. discriminate.
  - destruct k.
    + destruct Hv as (d & -> & N & Hd). destruct (fields_round0 fs d H Hd N) as (e & E & B & L & D). exists e. rewrite enc_rec, dec_rec by congruence. cbn [record_source bind].
      rewrite E, D. cbn [bind record_value]. repeat split; auto. intros n Hn. eapply L; eauto.
    + destruct Hv as (Hb & m & -> & B & L). exists m. cbn [encode decode]. split; auto. split; auto. unfold zlen. rewrite L. cbn [Z.of_nat Z.eqb]. split; auto.
      intros n Hn. rewrite Hb in Hn. injection Hn as <-. auto.
    + destruct Hv as (Hb & m & -> & B & L). exists m. cbn [encode decode]. split; auto. split; auto. unfold zlen. rewrite L. split; auto.
      intros n Hn. rewrite Hb in Hn. injection Hn as <-. auto.
    + destruct Hv as (h & mi & s & -> & Ht & N & Hd). destruct (fields_round0 fs _ H Hd N) as (e & E & B & L & D). exists e. rewrite enc_rec, dec_rec by congruence. cbn [record_source bind].
      rewrite E, D. cbn [bind]. split; auto. split; auto. split; [|intros n Hn; eapply L; eauto].
      etransitivity; [apply time_value|]. rewrite Ht. auto.
    + destruct Hv as (y & m & dd & -> & Ht & N & Hd). destruct (fields_round0 fs _ H Hd N) as (e & E & B & L & D). exists e. rewrite enc_rec, dec_rec by congruence. cbn [record_source bind].
      rewrite E, D. cbn [bind]. split; auto. split; auto. split; [|intros n Hn; eapply L; eauto].
      etransitivity; [apply date_value|]. rewrite Ht. auto.
    + destruct Hv as (y & m & dd & h & mi & s & -> & N & Hd). destruct (fields_round0 fs _ H Hd N) as (e & E & B & L & D). exists e.
      split; [|split; [auto|split; [|intros n Hn; eapply L; eauto]]].
      * assert (Hd' : fields_ok fs [(codes "date", VDate y m dd); (codes "time", VTime h mi s 0)]) by exact Hd. clear Hd. rename Hd' into Hd.
        destruct fs as [|[k0 t0] [|[k1 t1] [|[k2 t2] fs]]]; cbn [fields_ok] in Hd; try tauto. cbn [fields_ok] in Hd. destruct Hd as (-> & _ & _ & -> & _).
        rewrite <- E. symmetry. apply stamp_fields.
      * rewrite dec_rec by congruence. rewrite D. reflexivity.
    + destruct Hv as (n & dd & -> & Hz & N & Hd). destruct (fields_round0 fs _ H Hd N) as (e & E & B & L & D). exists e. rewrite enc_rec, dec_rec by congruence. cbn [record_source bind rat_of fst snd].
      rewrite E, D. cbn [bind]. split; auto. split; auto. split; [|intros m Hn; eapply L; eauto].
      etransitivity; [apply rat_value|]. unfold rat_new. cbn [fst snd]. rewrite !Z.mul_1_r. replace (dd =? 0) with false by lia. auto.
  - destruct (IHt w Hv) as (d & E & B & D & L). exists d. cbn. repeat split; auto. intros m X. discriminate.
  - destruct Hv as (es & a & s & He & N & I & -> & B & L). exists a. cbn [encode decode]. rewrite He. cbn [bind]. rewrite (ext_find es a s N I).
    split; auto. split; auto. unfold zlen at 1. rewrite L. cbn [Z.of_nat Z.eqb negb]. replace (Z.of_nat 16 =? 0) with false by auto. cbn [negb].
    rewrite (dict_get_in zlist_eqb zlist_eqb_eq es a s); auto; [|eapply ext_elements_keys; eauto]. split; auto. intros m X. discriminate.
  - destruct Hv.
Qed.
End Round.
