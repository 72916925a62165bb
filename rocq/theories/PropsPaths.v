(** C59: the paths of the built-in weak reference types lead to sets of the class they refer to. *)
From Verif Require Import Base Codec Text TypesModel TimelineModel MetaModel MetaFacts MetaTables PropsBuiltin PropsMeta.
From Coq Require Import ZArith List Bool String.
Import ListNotations.
Open Scope Z_scope.

(** [t] refers to objects of class [k]: it is a reference, or an array or set of such. *)
Inductive refers (m : meta) : tdef -> cdef -> Prop :=
| ref_strong : forall t c k, t_kind t = KStrong c -> class_of m c = Some k -> refers m t k
| ref_weak : forall t c path k, t_kind t = KWeak c path -> class_of m c = Some k -> refers m t k
| ref_array : forall t el e k, t_kind t = KVar el \/ t_kind t = KSet el -> type_of m el = Some e -> refers m e k -> refers m t k.
(** From [c] along the properties [path], each a property of the class reached so far, to the last. *)
Inductive leads (m : meta) : cdef -> list Z -> pdef -> Prop :=
| leads_last : forall c p, In p (props c) -> leads m c [p_auid p] p
| leads_step : forall c p t k path q, In p (props c) -> type_of m (p_type p) = Some t -> refers m t k -> leads m k path q ->
    leads m c (p_auid p :: path) q.

Lemma ref_classdef_refers : forall fuel m t k, ref_classdef fuel m t = Ok (Some k) -> refers m t k.
Proof.
  induction fuel as [|fuel IH]; intros m t k H; [discriminate|]. cbn [ref_classdef] in H. destruct (t_kind t) eqn:K; try discriminate.
  - destruct (type_of m el) as [e|] eqn:E; [|discriminate]. eapply ref_array; eauto.
  - destruct (type_of m el) as [e|] eqn:E; [|discriminate]. eapply ref_array; eauto.
  - injection H as H. eapply ref_strong; eauto.
  - injection H as H. eapply ref_weak; eauto.
Qed.
Lemma path_from_leads : forall fuel m path c l x p, path_from fuel m (Some c) path = Ok (l ++ [(x, p)]) -> leads m c path p.
Proof.
  intros fuel m. induction path as [|a path IH]; intros c l x p H; cbn [path_from] in H. { destruct l; discriminate. }
  destruct (find _ (props c)) as [q|] eqn:F; [|discriminate]. apply find_some in F as [I F]. apply Z.eqb_eq in F. subst a. destruct (type_of m (p_type q)) as [t|] eqn:T; [|discriminate].
  destruct (ref_classdef fuel m t) as [c'|] eqn:R; [|discriminate]. cbn [bind] in H. destruct (path_from fuel m c' path) as [r|] eqn:P; [|discriminate]. cbn [bind] in H. injection H as H.
  destruct l as [|y l]; cbn [app] in H.
  - injection H as -> -> ->. destruct path as [|b path]; [constructor; auto|]. cbn [path_from] in P. destruct c' as [c'|]; [|discriminate]. destruct (find _ (props c')) as [q'|]; [|discriminate].
    destruct (type_of m (p_type q')); [|discriminate]. destruct (ref_classdef fuel m t0); [|discriminate]. cbn [bind] in P. destruct (path_from fuel m a path); discriminate.
  - injection H as <- ->. destruct c' as [c'|]. 2:{ destruct path; cbn in P; [injection P as P; destruct l; discriminate|discriminate]. }
    eapply leads_step; eauto. eapply ref_classdef_refers; eauto.
Qed.

Definition path_check (m : meta) (t : tdef) : bool :=
  match t_kind t with
  | KWeak c path => match propertydef_path 12 m path with
      | Ok l => match rev l with
          | (_, p) :: _ => match type_of m (p_type p) with
              | Some t' => match t_kind t', ref_classdef 12 m t' with KSet _, Ok (Some k) => c_auid k =? c | _, _ => false end
              | None => false end
          | [] => false end
      | Err _ => false end
  | _ => true
  end.
Lemma paths_checked : both (types_forall path_check).
Proof. split; vm_compute; reflexivity. Qed.

(** Every weak reference type of the model has a path that can be followed from the root object, and it
    ends at a set of objects of the class the type refers to: there the key of a reference is looked up
    (file.py:281-294). *)
Theorem C59_paths : forall m, built_in m -> forall t c path, registered m t -> t_kind t = KWeak c path ->
  exists root p s el k, class_named m "Root" = Some root /\ leads m root path p /\
    type_of m (p_type p) = Some s /\ t_kind s = KSet el /\ refers m s k /\ c_auid k = c.
Proof.
  intros m H t c path R K. pose proof (registered_by m _ (both_ok _ paths_checked m H) t R) as B. unfold path_check in B. rewrite K in B. clear H R.
  unfold propertydef_path in B. destruct (class_named m "Root") as [root|].
  2:{ destruct path; cbn in B; discriminate. }
  destruct (path_from 12 m (Some root) path) as [l|] eqn:P; [|discriminate]. destruct (rev l) as [|[x p] r] eqn:Q; [discriminate|].
  apply (f_equal (@rev _)) in Q. rewrite rev_involutive in Q. cbn [rev] in Q. subst l. destruct (type_of m (p_type p)) as [s|] eqn:T; [|discriminate]. destruct (t_kind s) eqn:S; try discriminate.
  destruct (ref_classdef 12 m s) as [[k|]|] eqn:E; try discriminate. apply Z.eqb_eq in B. exists root, p, s, el, k.
  split; auto. split; [eapply path_from_leads; eauto|]. split; auto. split; auto. split; auto. eapply ref_classdef_refers; eauto.
Qed.
(** ... among them the reference from a property definition to its type, by Root, MetaDictionary,
    TypeDefinitions. *)
Example C59_paths_case : holds full_model (fun m => existsb (fun t => match t_kind t with KWeak _ path => Nat.eqb (List.length path) 3 | _ => false end) (m_theap m) && existsb (fun t => match t_kind t with KWeak _ path => Nat.eqb (List.length path) 2 | _ => false end) (m_theap m)) = true.
Proof. vm_compute. reflexivity. Qed.

(** ref_classdef is the class a type refers to, directly or through its element types. *)
Theorem C59_ref_class : forall m t k, (exists fuel, ref_classdef fuel m t = Ok (Some k)) <-> refers m t k.
Proof.
  intros m t k. split; [intros [fuel H]; eapply ref_classdef_refers; eauto|].
  intros H. induction H as [t c k K C|t c path k K C|t el e k K E R IH].
  - exists 1%nat. cbn. rewrite K, C. auto.
  - exists 1%nat. cbn. rewrite K, C. auto.
  - destruct IH as [fuel IH]. exists (S fuel). cbn [ref_classdef]. destruct K as [-> | ->]; rewrite E; auto.
Qed.
Print Assumptions C59_paths. Print Assumptions C59_ref_class.
