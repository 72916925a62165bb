(** Path strings of clean paths *)
From Coq Require Import ZArith List Bool Lia.
Import ListNotations.
From Verif Require Import Base BaseFacts NsModel NsSpec.
Open Scope Z_scope.

Lemma lstrip_app : forall n t, n <> [] -> ~ In 47 n -> lstrip (n ++ t) = n ++ t.
Proof. intros [|c n] t H1 H2; [tauto|]. cbn. unfold SL. destruct (c =? 47) eqn:E; auto. exfalso. apply H2. left. lia. Qed.
Lemma split_app : forall n t h r, ~ In 47 n -> split t = h :: r -> split (n ++ t) = (n ++ h) :: r.
Proof.
  induction n as [|c n IH]; intros t h r H E; cbn [app]; auto. cbn [split]. unfold SL. destruct (c =? 47) eqn:Q; [exfalso; apply H; left; lia|].
  rewrite (IH t h r); auto. intros X. apply H. right. auto.
Qed.
Lemma split_flat : forall p, clean p -> split (flat_map (fun n => 47 :: n) p) = [] :: p.
Proof.
  induction p as [|n p IH]; intros H; cbn [flat_map app]; [reflexivity|]. apply Forall_cons_iff in H as [[H1 H2] H3].
  cbn [app]. cbn [split]. change (47 =? SL) with true. cbv iota. f_equal. rewrite (split_app n _ [] p); auto. rewrite app_nil_r. auto.
Qed.
Lemma flat_map_app' : forall (p q : path), flat_map (fun n => 47 :: n) (p ++ q) = flat_map (fun n => 47 :: n) p ++ flat_map (fun n => 47 :: n) q.
Proof. intros. apply flat_map_app. Qed.
Lemma text_cons : forall n p, text_of (n :: p) = 47 :: n ++ flat_map (fun n => 47 :: n) p.
Proof. reflexivity. Qed.
Lemma split_text : forall p, clean p -> p <> [] -> split (lstrip (text_of p)) = p.
Proof.
  intros [|n p] H Hp; [tauto|]. rewrite text_cons. cbn [lstrip]. change (47 =? SL) with true. cbv iota. apply Forall_cons_iff in H as [[H1 H2] H3].
  rewrite lstrip_app by auto. rewrite (split_app n _ [] p); auto; [rewrite app_nil_r; auto|]. apply split_flat. auto.
Qed.
Lemma text_root : forall p, clean p -> zlist_eqb (text_of p) [SL] = match p with [] => true | _ => false end.
Proof.
  intros [|n p] H; [reflexivity|]. apply Forall_cons_iff in H as [[H1 H2] H3]. rewrite text_cons. destruct (zlist_eqb _ _) eqn:E; auto.
  apply zlist_eqb_spec in E. unfold SL in E. injection E as E. destruct n; [tauto|discriminate].
Qed.
Lemma cut_plain : forall n, ~ In 47 n -> cut n = ([], n).
Proof. induction n as [|c n IH]; intros H; cbn; auto. rewrite IH by (intros X; apply H; right; auto). unfold SL. destruct (c =? 47) eqn:E; auto. exfalso. apply H. left. lia. Qed.
Lemma cut_app : forall a n, ~ In 47 n -> cut (a ++ 47 :: n) = (a ++ [47], n).
Proof.
  induction a as [|c a IH]; intros n H; cbn [app].
  - cbn [cut]. rewrite cut_plain by auto. reflexivity.
  - cbn [cut]. rewrite IH by auto. destruct (a ++ [47]) eqn:E; auto. destruct a; discriminate.
Qed.
Lemma text_snoc : forall q n, text_of (q ++ [n]) = flat_map (fun n => 47 :: n) q ++ 47 :: n.
Proof. intros. unfold text_of. destruct (q ++ [n]) eqn:E; [destruct q; discriminate|]. rewrite <- E, flat_map_app'. cbn. rewrite app_nil_r. auto. Qed.
Lemma basename_text : forall q n, clean_name n -> basename (text_of (q ++ [n])) = n.
Proof. intros q n [_ H]. unfold basename. rewrite text_snoc, cut_app by auto. auto. Qed.
(** the last character of a clean path is not a slash *)
Lemma flat_last : forall q, clean q -> q <> [] -> exists a c, flat_map (fun n => 47 :: n) q = a ++ [c] /\ c <> 47.
Proof.
  intros q H Hq. destruct (exists_last Hq) as (q' & n & ->). apply Forall_app in H as [_ H]. apply Forall_cons_iff in H as [[H1 H2] _].
  destruct (exists_last H1) as (m & c & ->). exists (flat_map (fun n => 47 :: n) q' ++ 47 :: m), c. rewrite flat_map_app'. cbn. rewrite app_nil_r, <- app_assoc. split; auto.
  intros ->. apply H2. apply in_or_app. right. left. auto.
Qed.
Lemma rstrip_end : forall a c, c <> 47 -> rstrip (a ++ [c]) = a ++ [c].
Proof. intros a c H. unfold rstrip. rewrite rev_app_distr. cbn. unfold SL. replace (c =? 47) with false by lia. cbn. rewrite rev_involutive. auto. Qed.
Lemma rstrip_slash : forall a, rstrip (a ++ [47]) = rstrip a.
Proof. intros. unfold rstrip. rewrite rev_app_distr. cbn. auto. Qed.
Lemma dirname_text : forall q n, clean q -> clean_name n -> dirname (text_of (q ++ [n])) = text_of q.
Proof.
  intros q n H [_ Hn]. unfold dirname. rewrite text_snoc, cut_app by auto. cbn [fst]. destruct q as [|m q]; [reflexivity|].
  destruct (flat_last (m :: q) H) as (a & c & E & Hc); [discriminate|]. rewrite E, rstrip_slash, rstrip_end by auto. rewrite !forallb_app. cbn. replace (c =? SL) with false by (unfold SL; lia).
  rewrite andb_false_r. cbn. rewrite <- E. auto.
Qed.
Lemma strip_text : forall p, clean p -> p <> [] -> strip (text_of p) = lstrip (text_of p).
Proof.
  intros [|n p] H Hp; [tauto|]. unfold strip. rewrite text_cons. cbn [lstrip]. change (47 =? SL) with true. cbv iota. pose proof H as H0. apply Forall_cons_iff in H as [[H1 H2] H3].
  rewrite lstrip_app by auto. destruct (flat_last (n :: p) H0) as (a & c & E & Hc); [discriminate|]. cbn in E. destruct a as [|x a]; [injection E as E1 E2; congruence|].
  injection E as -> E. rewrite E. apply rstrip_end. auto.
Qed.
Lemma split_strip : forall p, clean p -> p <> [] -> split (strip (text_of p)) = p.
Proof. intros. rewrite strip_text by auto. apply split_text; auto. Qed.
Lemma join_text : forall p, SL :: join p = text_of p.
Proof.
  intros [|n p]; [reflexivity|]. rewrite text_cons. unfold SL. f_equal. revert n. induction p as [|m p IH]; intros n; cbn [join flat_map]; [rewrite app_nil_r; auto|].
  cbn [join] in IH. rewrite IH. reflexivity.
Qed.
Lemma ends_text : forall p, clean p -> endswith_sl (text_of p) = match p with [] => true | _ => false end.
Proof.
  intros [|n p] H; [reflexivity|]. destruct (flat_last (n :: p) H) as (a & c & E & Hc); [discriminate|]. unfold text_of. rewrite E. unfold endswith_sl. rewrite rev_app_distr. cbn. unfold SL. lia.
Qed.
Lemma starts_text : forall p, startswith_sl (text_of p) = true.
Proof. intros [|n p]; reflexivity. Qed.
Lemma text_one : forall n, 47 :: n = text_of [n].
Proof. intros. cbn. rewrite app_nil_r. auto. Qed.
