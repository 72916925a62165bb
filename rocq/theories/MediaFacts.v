(** Specifications of the scanned formats and lemmas about the scanners of MediaModel. *)
From Verif Require Import Base BaseFacts Codec CodecFacts IdsModel IdsFacts MediaModel.
From Coq Require Import ZArith List Bool Lia.
Import ListNotations.
Open Scope Z_scope.

(** * Reading *)
Lemma fread_app : forall a b c, fread (a ++ b ++ c) (zlen a) (zlen b) = b.
Proof. intros. unfold fread. rewrite zdrop_app_exact, ztake_app_exact. auto. Qed.

Lemma fread_at : forall a b c pos n, pos = zlen a -> n = zlen b -> fread (a ++ b ++ c) pos n = b.
Proof. intros. subst. apply fread_app. Qed.

Lemma fread_end : forall a pos n, zlen a <= pos -> fread a pos n = [].
Proof.
  intros. unfold fread. rewrite zdrop_all by auto. unfold ztake. destruct (Z.to_nat _); auto.
Qed.

Lemma zlen_be_bytes : forall n v, zlen (be_bytes n v) = Z.of_nat n.
Proof. intros. unfold zlen. rewrite be_bytes_length. auto. Qed.

Lemma read_be_app : forall n v a c, 0 <= v < 256 ^ Z.of_nat n ->
  read_be n (a ++ be_bytes n v ++ c) (zlen a) = Ok (v, zlen a + Z.of_nat n).
Proof.
  intros. unfold read_be. rewrite (fread_at _ (be_bytes n v)); auto using eq_sym, zlen_be_bytes.
  rewrite zlen_be_bytes, Z.eqb_refl, be_val_be_bytes, Z.mod_small; auto.
Qed.

Lemma fread_split : forall d pos n, 0 <= pos -> 0 <= n ->
  zdrop pos d = fread d pos n ++ zdrop (pos + zlen (fread d pos n)) d.
Proof.
  intros. unfold fread. rewrite Z.add_comm. rewrite <- zdrop_zdrop by (auto using zlen_nonneg).
  set (l := zdrop pos d). rewrite zlen_ztake by auto. destruct (Z.le_gt_cases n (zlen l)).
  - rewrite Z.min_l by lia. symmetry. apply ztake_zdrop.
  - rewrite Z.min_r by lia. rewrite ztake_all, zdrop_all by lia. rewrite app_nil_r. auto.
Qed.

Lemma read_be_inv : forall n d pos v p, (0 < n)%nat -> bytes d -> 0 <= pos -> read_be n d pos = Ok (v, p) ->
  p = pos + Z.of_nat n /\ p <= zlen d /\ 0 <= v < 256 ^ Z.of_nat n /\ zdrop pos d = be_bytes n v ++ zdrop p d.
Proof.
  intros n d pos v p Hn Hb Hp H. unfold read_be in H. set (b := fread d pos (Z.of_nat n)) in *.
  destruct (zlen b =? Z.of_nat n) eqn:E; [|discriminate]. injection H as <- <-. apply Z.eqb_eq in E.
  assert (Bb : bytes b) by (apply Forall_ztake, Forall_zdrop; auto).
  assert (Ln : length b = n) by (unfold zlen in E; lia).
  split; auto. split.
  { unfold b, fread in E. rewrite zlen_ztake in E by lia. rewrite zlen_zdrop in E by lia. lia. }
  split. { rewrite <- E. apply be_val_range; auto. }
  rewrite (fread_split d pos (Z.of_nat n)) by lia. fold b. rewrite E. f_equal.
  rewrite <- Ln. symmetry. apply be_bytes_be_val; auto.
Qed.

(** * KLV packets *)

(** A packet: 16 key bytes, the form of the length, the value. The short form is one byte below 128;
    the long form with n length bytes starts with 128 + n. *)
Record packet := Packet { pk_key : list Z; pk_form : option nat; pk_value : list Z }.

Definition ber (form : option nat) (len : Z) : list Z :=
  match form with None => [len] | Some n => (128 + Z.of_nat n) :: be_bytes n len end.
Definition packet_ok (p : packet) : Prop :=
  length (pk_key p) = 16%nat /\ bytes (pk_key p) /\
  match pk_form p with
  | None => zlen (pk_value p) < 128
  | Some n => (n <= 127)%nat /\ zlen (pk_value p) < 256 ^ Z.of_nat n
  end.
Definition enc_packet (p : packet) : list Z :=
  pk_key p ++ ber (pk_form p) (zlen (pk_value p)) ++ pk_value p.

(** What a scan starting at [pos] has to report: key, length of the value, position of the value. *)
Fixpoint report (pos : Z) (ps : list packet) : list (list Z * Z * Z) :=
  match ps with
  | [] => []
  | p :: r =>
    let vpos := pos + 16 + zlen (ber (pk_form p) (zlen (pk_value p))) in
    (pk_key p, zlen (pk_value p), vpos) :: report (vpos + zlen (pk_value p)) r
  end.
Definition shown (y : list Z * Z * Z) : list Z * Z * Z := let '(k, l, p) := y in (auid_bytes_be k, l, p).

Lemma ber_length_app : forall form len a c, 0 <= len ->
  match form with None => len < 128 | Some n => (n <= 127)%nat /\ len < 256 ^ Z.of_nat n end ->
  ber_length (a ++ ber form len ++ c) (zlen a) = Ok (len, zlen a + zlen (ber form len)).
Proof.
  intros [n|] len a c Hl H; unfold ber_length.
  - destruct H as [Hn H]. change (ber (Some n) len) with ([128 + Z.of_nat n] ++ be_bytes n len).
    replace [128 + Z.of_nat n] with (be_bytes 1 (128 + Z.of_nat n)) by (unfold be_bytes; cbn [le_bytes rev app]; f_equal; apply Z.mod_small; lia).
    rewrite <- app_assoc, read_be_app by lia. cbn [bind]. replace (127 <? 128 + Z.of_nat n) with true by lia.
    replace (128 + Z.of_nat n - 128) with (Z.of_nat n) by lia. change (Z.of_nat 1) with 1.
    replace (zlen a + 1) with (zlen (a ++ be_bytes 1 (128 + Z.of_nat n))) by (rewrite zlen_app, zlen_be_bytes; auto).
    rewrite app_assoc, (fread_at _ (be_bytes n len)) by (rewrite ?zlen_be_bytes; auto).
    rewrite zlen_be_bytes, Z.eqb_refl. f_equal. f_equal.
    + unfold int_from_bytes_be. rewrite int_from_be_val by lia. rewrite be_val_be_bytes. apply Z.mod_small; lia.
    + rewrite !zlen_app, !zlen_be_bytes. lia.
  - cbn [ber]. replace [len] with (be_bytes 1 len) by (unfold be_bytes; cbn [le_bytes rev app]; f_equal; apply Z.mod_small; lia).
    rewrite read_be_app by lia. cbn [bind]. replace (127 <? len) with false by lia. rewrite zlen_be_bytes. auto.
Qed.

Lemma iter_kl_S : forall n d pos, iter_kl (S n) d pos =
    if off_max <=? pos then ([], Err Overflow) else
    match fread d pos 16 with
    | [] => ([], Ok tt)
    | _ =>
      match ber_length d (pos + zlen (fread d pos 16)) with
      | Err e => ([], Err e)
      | Ok (length, p) =>
        let '(ys, r) := iter_kl n d (p + length) in ((auid_of_be (fread d pos 16), length, p) :: ys, r)
      end
    end.
Proof. reflexivity. Qed.

Lemma kl_step : forall n d pos, pos < off_max -> fread d pos 16 <> [] -> iter_kl (S n) d pos =
      match ber_length d (pos + zlen (fread d pos 16)) with
      | Err e => ([], Err e)
      | Ok (length, p) =>
        let '(ys, r) := iter_kl n d (p + length) in ((auid_of_be (fread d pos 16), length, p) :: ys, r)
      end.
Proof.
  intros. rewrite iter_kl_S. replace (off_max <=? pos) with false by lia. destruct (fread d pos 16) eqn:E; [congruence|]. auto.
Qed.

Lemma ber_length_nonneg : forall d pos l p, bytes d -> 0 <= pos -> ber_length d pos = Ok (l, p) ->
  0 <= l /\ pos < p <= zlen d /\
  exists form, match form with None => l < 128 | Some n => (n <= 127)%nat /\ l < 256 ^ Z.of_nat n end /\
    zdrop pos d = ber form l ++ zdrop p d /\ p = pos + zlen (ber form l).
Proof.
  intros d pos l p Hb Hp H. unfold ber_length in H. destruct (read_be 1 d pos) as [[v q]|] eqn:E; [|discriminate].
  apply read_be_inv in E; auto. destruct E as (-> & Hq & Hv & Ed). change (Z.of_nat 1) with 1 in *. change (256 ^ 1) with 256 in Hv. cbn [bind] in H.
  assert (E1 : be_bytes 1 v = [v]) by (unfold be_bytes; cbn [le_bytes rev app]; f_equal; apply Z.mod_small; lia). rewrite E1 in Ed.
  destruct (127 <? v) eqn:C.
  - set (data := fread d (pos + 1) (v - 128)) in *. destruct (zlen data =? v - 128) eqn:L; [|discriminate]. injection H as <- <-. apply Z.eqb_eq in L.
    assert (Bd : bytes data) by (apply Forall_ztake, Forall_zdrop; auto).
    assert (R : 0 <= int_from_bytes_be data < 256 ^ zlen data) by (unfold int_from_bytes_be; rewrite int_from_be_val by lia; apply be_val_range; auto).
    split; [lia|]. split. { assert (zlen data <= Z.max 0 (zlen d - (pos + 1))). { unfold data, fread. rewrite zlen_ztake, zlen_zdrop; lia. } lia. }
    exists (Some (length data)). assert (EL : Z.of_nat (length data) = v - 128) by (unfold zlen in L; auto). rewrite EL. split; [split; [lia|rewrite L in R; lia]|].
    assert (EB : be_bytes (length data) (int_from_bytes_be data) = data). { unfold int_from_bytes_be. rewrite int_from_be_val by lia. apply be_bytes_be_val; auto. }
    unfold ber. rewrite EB, EL. split.
    + rewrite Ed. replace (128 + (v - 128)) with v by lia. cbn [app]. f_equal. rewrite (fread_split d (pos + 1) (v - 128)) by lia. fold data. rewrite L. auto.
    + rewrite zlen_cons. lia.
  - injection H as <- <-. split; [lia|]. split; [lia|]. exists None. split; [lia|]. split; auto.
Qed.

(** * Local tags *)
Definition item_ok (x : Z * list Z) : Prop := 0 <= fst x < 65536 /\ zlen (snd x) < 65536.
Definition enc_item (x : Z * list Z) : list Z := be_bytes 2 (fst x) ++ be_bytes 2 (zlen (snd x)) ++ snd x.
Definition nonempty (x : Z * list Z) : bool := negb (zlen (snd x) =? 0).

Lemma iter_tags_S : forall n d pos l, iter_tags (S n) d pos l =
    if 0 <? l then
      match read_be 2 d pos with
      | Err e => ([], Err e)
      | Ok (tag, p1) =>
        match read_be 2 d p1 with
        | Err e => ([], Err e)
        | Ok (size, p2) =>
          let v := fread d p2 size in
          let '(ys, r) := iter_tags n d (p2 + zlen v) (l - (4 + size)) in
          (if size =? 0 then (ys, r) else ((tag, v) :: ys, r))
        end
      end
    else ([], Ok pos).
Proof. reflexivity. Qed.

(** * Chunks *)
Definition pad (v : list Z) : list Z := if zlen v mod 2 =? 1 then [0] else [].

Lemma chunk_loop_S : forall n wanted val d head pos, chunk_loop (S n) wanted val d head pos =
    let chunkid := fread d pos 4 in
    let p := pos + zlen chunkid in
    let sizebuf := fread d p 4 in
    let p := p + zlen sizebuf in
    if (zlen sizebuf <? 4) || (zlen chunkid <? 4) then Ok None else
    let size := val sizebuf in
    if negb (wanted chunkid) then
      let seek := if size mod 2 =? 1 then size + 1 else size in
      chunk_loop n wanted val d head (p + seek)
    else Ok (Some (head ++ chunkid ++ sizebuf ++ fread d p size)).
Proof. reflexivity. Qed.
