(** C67: files that meet the hypotheses, and files whose definitions are not merged as they should be. *)
From Verif Require Import Base BaseFacts TypesModel TimelineModel MetaModel MetaFacts MetaTables PropsMeta PropsBuiltin PropsMetaCopy PropsMetaMore OpenMetaModel OpenMetaFacts PropsOpenMeta PropsOpenRun.
From Coq Require Import ZArith List Bool String Lia.
Import ListNotations.
Open Scope Z_scope.

Definition INTERCHANGE : Z := 0x0d01010101010100060e2b3402060101.
Definition UINT32 : Z := 0x0101030000000000060e2b3401040101.
Definition pids_of (m : meta) (a : Z) : list Z := match class_of m a with Some c => map p_pid (props c) | None => [] end.

(** reading a file into the built-in model, for checking *)
Notation read_base fc ft := (bind base_model (fun m => read_dictionary true m fc ft)).
Lemma base_case : forall (b : result meta) (chk : meta -> bool), holds b chk = true -> exists m, b = Ok m /\ chk m = true.
Proof. intros [m|e] chk H; [|discriminate]. exists m. split; [reflexivity|exact H]. Qed.
Lemma bind_case : forall (b : result meta) (f : meta -> result meta) chk, holds (bind b f) chk = true -> exists m m', b = Ok m /\ f m = Ok m' /\ chk m' = true.
Proof.
  intros [m|e] f chk H; [|discriminate]. cbn [bind] in H. exists m. destruct (f m) as [m'|]; [|discriminate]. exists m'. split; [reflexivity|]. split; [reflexivity|exact H].
Qed.
(* the first two together, so that no tactic computes with them *)
Lemma read_case : forall fc ft chk, holds (read_base fc ft) chk = true -> exists m m', (base_model = Ok m /\ read_dictionary true m fc ft = Ok m') /\ chk m' = true.
Proof.
  intros fc ft chk H. destruct (bind_case base_model (fun m => read_dictionary true m fc ft) chk H) as (m & m' & A & B & C). exists m, m'. split; [split; [exact A|exact B]|exact C].
Qed.

(** ** Sound files *)
Lemma sound_one : forall c ft, nodupb Z.eqb (map fst (c_props c)) = true -> forallb (fun x => p_auid (snd x) =? fst x) (c_props c) = true ->
  nodupb Z.eqb (map p_pid (props c)) = true -> NoDup (map t_auid ft) -> NoDup (map t_name ft) -> sound_file [c] ft.
Proof.
  intros c ft N K P T1 T2. apply nodupZ in N, P. rewrite forallb_forall in K.
  split; [repeat constructor; intros []|]. split; [repeat constructor; intros []|]. split; [exact T1|]. split; [exact T2|]. split.
  - intros d [<-|[]]. split; [exact N|]. intros k p I. apply K in I. cbn [fst snd] in I. lia.
  - intros d p d' p' [<-|[]] I [<-|[]] J _ Q. split; [reflexivity|]. eapply NoDup_map_inj; eauto.
Qed.
Lemma sound_none : forall ft, NoDup (map t_auid ft) -> NoDup (map t_name ft) -> sound_file [] ft.
Proof. intros ft A B. repeat split; try constructor; auto; intros; contradiction. Qed.
(** the classes of type definitions *)
Definition TYPE_CLASSES : list Z :=
  [0x0d01010102040000060e2b3402060101; 0x0d01010102050000060e2b3402060101; 0x0d01010102060000060e2b3402060101; 0x0d01010102070000060e2b3402060101;
   0x0d01010102080000060e2b3402060101; 0x0d01010102090000060e2b3402060101; 0x0d010101020a0000060e2b3402060101; 0x0d010101020b0000060e2b3402060101;
   0x0d010101020c0000060e2b3402060101; 0x0d010101020d0000060e2b3402060101; 0x0d010101020e0000060e2b3402060101; 0x0d01010102200000060e2b3402060101;
   0x0d01010102210000060e2b3402060101; 0x0d01010102220000060e2b3402060101; 0x0d01010102230000060e2b3402060101; 0x0e04010100000000060e2b3402060101].
Lemma complete_other : forall m fc ft, (forall c, In c fc -> ~ In (c_auid c) TYPE_CLASSES) -> complete m fc ft.
Proof.
  intros m fc ft H a t c p _ _ _ I E _ _. exfalso. apply (H c I). rewrite E. destruct (t_kind t); cbn; tauto.
Qed.

(** ** A file with a class and a type of its own, whose two dynamic ids are the first and the last of
    those of the built-in model *)
Definition extra : cdef := CDef "Extra" 77 INTERCHANGE true [(701, PDef "One" 701 65535 UINT32 true false); (702, PDef "Two" 702 65468 UINT32 true false)] [].
Definition my_type : tdef := TDef "MyInt" 78 (KInt 4 false).
Lemma extra_sound : sound_file [extra] [my_type].
Proof. apply sound_one; try reflexivity; cbn; repeat constructor; intros []. Qed.
Lemma extra_complete : forall m, complete m [extra] [my_type].
Proof. intros m. apply complete_other. intros c [<-|[]]. cbn. intros H. repeat (destruct H as [H|H]; [discriminate|]). exact H. Qed.
Lemma extra_few : zlen (flat_map dynamic_ids [extra]) <= 32000.
Proof. vm_compute. discriminate. Qed.
Definition CHAR : Z := 0x0110030000000000060e2b3401040101.
Example C67_opens_case : exists m m', base_model = Ok m /\ sound_file [extra] [my_type] /\ complete m [extra] [my_type] /\ read_dictionary true m [extra] [my_type] = Ok m' /\
  pids_of m' 77 = [65535; 65468] /\ type_of m' 78 = Some my_type /\ pids_of m' GENERICCHAR = [65467] /\
  match type_of m' CHAR with Some t => t_kind t = KGenChar 1 65467 | None => False end.
Proof.
  assert (H : holds (read_base [extra] [my_type]) (fun m' =>
    match pids_of m' 77, type_of m' 78, pids_of m' GENERICCHAR, type_of m' CHAR with
    | [a; b], Some t, [c], Some u => (a =? 65535) && (b =? 65468) && (c =? 65467) && (match t, u with TDef n i (KInt s g), TDef _ _ (KGenChar s2 p) => String.eqb n "MyInt" && (i =? 78) && (s =? 4) && negb g && (s2 =? 1) && (p =? 65467) | _, _ => false end)
    | _, _, _, _ => false end) = true) by (vm_compute; reflexivity).
  apply read_case in H as (m & m' & BR & H). exists m, m'. split; [exact (proj1 BR)|]. split; [exact extra_sound|]. split; [apply extra_complete|]. split; [exact (proj2 BR)|]. clear BR.
  destruct (pids_of m' 77) as [|a [|b [|? ?]]]; try discriminate. destruct (type_of m' 78) as [t|]; [|discriminate]. destruct (pids_of m' GENERICCHAR) as [|c [|? ?]]; try discriminate. destruct (type_of m' CHAR) as [u|]; [|discriminate].
  apply andb_prop in H as [H H4]. apply andb_prop in H as [H H3]. apply andb_prop in H as [H1 H2]. apply Z.eqb_eq in H1, H2, H3. subst.
  destruct t as [n i [s g| | | | | | | | | | | | | | |]]; try discriminate. destruct u as [n2 i2 [| | | | | | | | | | |s2 p| | | |]]; try discriminate.
  repeat (apply andb_prop in H4 as [H4 ?]). apply String.eqb_eq in H4. destruct g; [discriminate|]. repeat match goal with H : (_ =? _) = true |- _ => apply Z.eqb_eq in H end. subst. repeat split.
Qed.

(** ** What does not hold *)
Definition CLASSDEF : Z := 0x0d01010102010000060e2b3402060101.
Definition CDCI : Z := 0x0d01010101012800060e2b3402060101.
Definition MPEG : Z := 0x0d01010101015100060e2b3402060101.
Definition EDGECODE : Z := 0x0d01010101010400060e2b3402060101.
Definition SEGMENT : Z := 0x0d01010101010300060e2b3402060101.

(** Every name leads to the class that its identifier leads to. *)
Definition names_agree (m : meta) : Prop := forall n c, class_named m n = Some c -> class_of m (c_auid c) = Some c.
(** A file that defines a class of the built-in model: its other names still lead to the built-in one,
    metadict.py:568-580. *)
Definition own_classdef : cdef := CDef "ClassDefinition" CLASSDEF 0x0d01010102240000060e2b3402060101 true [(701, PDef "One" 701 65000 UINT32 true false)] [].
Theorem C67_alias_refuted : exists m fc ft m', base_model = Ok m /\ sound_file fc ft /\ complete m fc ft /\ names_agree m /\ read_dictionary true m fc ft = Ok m' /\ ~ names_agree m'.
Proof.
  assert (H : holds (read_base [own_classdef] []) (fun m' => match class_named m' "ClassDef" with
     | Some c => (c_auid c =? CLASSDEF) && (List.length (c_props c) =? 3)%nat && match class_of m' CLASSDEF with Some d => (List.length (c_props d) =? 1)%nat | None => false end | None => false end) = true) by (vm_compute; reflexivity).
  apply read_case in H as (m & m' & BR & H). exists m, [own_classdef], [], m'. split; [exact (proj1 BR)|].
  split; [apply sound_one; try reflexivity; constructor|]. split; [apply complete_other; intros c [<-|[]]; cbn; intros Q; repeat (destruct Q as [Q|Q]; [discriminate|]); exact Q|].
  split; [|split; [exact (proj2 BR)|]].
  - intros n c X. pose proof (reach_built_in m (or_introl (proj1 BR))) as Rb. pose proof (stored_all _ Rb) as ((_ & _ & _ & M4) & _). unfold class_named in X. destruct (sget (m_cname m) n) as [h|] eqn:Q; [|discriminate].
    unfold class_of. assert (Y : zget (m_cauid m) (c_auid c) = Some h) by (eapply M4; unfold class_named; rewrite ?Q; eauto). rewrite Y. exact X.
  - clear BR. intros N. destruct (class_named m' "ClassDef") as [c|] eqn:X; [|discriminate]. apply N in X. apply andb_prop in H as [H H3]. apply andb_prop in H as [H1 H2]. apply Z.eqb_eq in H1. rewrite H1 in X. rewrite X in H3.
    apply Nat.eqb_eq in H2, H3. congruence.
Qed.
Print Assumptions C67_alias_refuted.

(** Opening a file that calls the class by its other name, with the extensions (file.py:221-222): the
    registration of the extensions puts the built-in class in the place of the file's, and the file's
    ids are lost. *)
Definition own_edgecode : cdef := CDef "Edgecode" EDGECODE SEGMENT true [(0x4d783cfa35da45669a522190d5078616, PDef "AvEdgeType" 0x4d783cfa35da45669a522190d5078616 65000 0x0101060000000000060e2b3401040101 true false)] [].
Theorem C67_extensions_refuted : exists fc ft m, sound_file fc ft /\ (forall m, complete m fc ft) /\ open_dictionary true true fc ft = Ok m /\
  exists c p d, In c fc /\ In p (props c) /\ p_pid p = 65000 /\ class_of m (c_auid c) = Some d /\ forall q, In q (props d) -> p_auid q = p_auid p -> p_pid q <> p_pid p.
Proof.
  assert (H : holds (open_dictionary true true [own_edgecode] []) (fun m => match class_of m EDGECODE with Some d => forallb (fun q => negb (p_pid q =? 65000)) (props d) | None => false end) = true) by (vm_compute; reflexivity).
  apply base_case in H as (m & E & H). exists [own_edgecode], [], m.
  split; [apply sound_one; try reflexivity; constructor|]. split; [intros m0; apply complete_other; intros c [<-|[]]; cbn; intros Q; repeat (destruct Q as [Q|Q]; [discriminate|]); exact Q|].
  split; [exact E|]. clear E. destruct (class_of m EDGECODE) as [d|] eqn:D; [|discriminate]. exists own_edgecode, (PDef "AvEdgeType" 0x4d783cfa35da45669a522190d5078616 65000 0x0101060000000000060e2b3401040101 true false), d.
  split; [left; reflexivity|]. split; [left; reflexivity|]. split; [reflexivity|]. split; [exact D|]. intros q I _ Q. rewrite forallb_forall in H. apply H in I. rewrite Q in I. discriminate.
Qed.
Print Assumptions C67_extensions_refuted.

(** A class of the built-in model that the file does not have keeps the entry of the id it had: if the file
    gives that id to an ancestor's property, the lookup gives the wrong property (metadict.py:285-296,
    617-621). *)
Definition own_cdci : cdef := CDef "CDCIDescriptor" CDCI 0x0d01010101012700060e2b3402060101 true
  (map (fun pid => (pid, PDef "Own" pid pid UINT32 true false)) (zseq 65468 68)) [].
Theorem C67_by_id_refuted : exists m fc ft m' c l p q pid, base_model = Ok m /\ sound_file fc ft /\ complete m fc ft /\ read_dictionary true m fc ft = Ok m' /\
  class_of m' MPEG = Some c /\ relatives m' c = Ok l /\ propertydef m' c pid = Ok (Some p) /\ p_pid p <> pid /\ In q (flat_map props l) /\ p_pid q = pid.
Proof.
  assert (H : holds (read_base [own_cdci] []) (fun m' => match class_of m' MPEG with
     | Some c => match relatives m' c, c_bypid c with
                 | Ok l, x :: _ => match propertydef m' c (fst x), find (fun q => p_pid q =? fst x) (flat_map props l) with Ok (Some p), Some q => negb (p_pid p =? fst x) | _, _ => false end
                 | _, _ => false end
     | None => false end) = true) by (vm_compute; reflexivity).
  apply read_case in H as (m & m' & BR & H). destruct (class_of m' MPEG) as [c|] eqn:C; [|discriminate]. destruct (relatives m' c) as [l|] eqn:L; [|discriminate]. destruct (c_bypid c) as [|x t]; [discriminate|].
  destruct (propertydef m' c (fst x)) as [[p|]|] eqn:P; try discriminate. destruct (find (fun q => p_pid q =? fst x) (flat_map props l)) as [q|] eqn:Q; [|discriminate]. apply find_some in Q as [Q1 Q2].
  exists m, [own_cdci], [], m', c, l, p, q, (fst x). split; [exact (proj1 BR)|]. split; [apply sound_one; try reflexivity; try constructor; vm_compute; reflexivity|].
  split; [apply complete_other; intros d [<-|[]]; vm_compute; intros Y; repeat (destruct Y as [Y|Y]; [discriminate|]); exact Y|]. split; [exact (proj2 BR)|]. split; [exact C|]. split; [exact L|]. split; [exact P|]. clear BR.
  split; [intros Y; rewrite Y, Z.eqb_refl in H; discriminate|]. split; [exact Q1|lia].
Qed.
Print Assumptions C67_by_id_refuted.

(** Without [complete] a file can not be opened for writing: the file has the class of the generic
    character, under its own id for the size, and not the built-in character type (metadict.py:601-603). *)
Definition own_generic : cdef := CDef "TypeDefinitionGenericCharacter" GENERICCHAR 0x0d01010102030000060e2b3402060101 true [(CHARSIZE, PDef "CharacterSize" CHARSIZE 65000 UINT32 false false)] [].
Theorem C67_opens_refuted : exists m fc ft, base_model = Ok m /\ sound_file fc ft /\ read_dictionary false m fc ft <> Err KeyError /\ read_dictionary true m fc ft = Err KeyError.
Proof.
  assert (H : holds base_model (fun m => match read_dictionary true m [own_generic] [] with Err KeyError => true | _ => false end) = true) by (vm_compute; reflexivity).
  apply base_case in H as (m & B & H). exists m, [own_generic], []. split; [exact B|]. split; [apply sound_one; try reflexivity; constructor|]. split; [discriminate|].
  clear B. destruct (read_dictionary true m [own_generic] []) as [|[]]; try discriminate. reflexivity.
Qed.
Print Assumptions C67_opens_refuted.
(** If the file happens to use the built-in id, it opens, but the file's own class gets another id. *)
Definition own_generic2 : cdef := CDef "TypeDefinitionGenericCharacter" GENERICCHAR 0x0d01010102030000060e2b3402060101 true [(CHARSIZE, PDef "CharacterSize" CHARSIZE 65468 UINT32 false false)] [].
Theorem C67_file_refuted : exists m fc ft m' c d, base_model = Ok m /\ sound_file fc ft /\ read_dictionary true m fc ft = Ok m' /\ In c fc /\ class_of m' (c_auid c) = Some d /\ map p_pid (props d) <> map p_pid (props c).
Proof.
  assert (H : holds (read_base [own_generic2] []) (fun m' => match class_of m' GENERICCHAR with Some d => match map p_pid (props d) with [x] => negb (x =? 65468) | _ => false end | None => false end) = true) by (vm_compute; reflexivity).
  apply read_case in H as (m & m' & BR & H). destruct (class_of m' GENERICCHAR) as [d|] eqn:D; [|discriminate]. exists m, [own_generic2], [], m', own_generic2, d.
  split; [exact (proj1 BR)|]. split; [apply sound_one; try reflexivity; constructor|]. split; [exact (proj2 BR)|]. split; [left; reflexivity|]. split; [exact D|]. clear BR. intros Q. rewrite Q in H. discriminate.
Qed.
Print Assumptions C67_file_refuted.

(** After a file was opened, the ids the built-in definitions kept are not in local_pids
    (metadict.py:567, 575-576, 617-621): registering a class with one of them is not refused, as it is in
    a new file, and two properties have one id. *)
Definition late : crow := CRow "Late" 79 (Some INTERCHANGE) true [PRow "One" 791 (Some 65535) UINT32 true false].
Theorem C67_claim_refuted : exists m fc ft m' m2, base_model = Ok m /\ sound_file fc ft /\ complete m fc ft /\ read_dictionary true m fc ft = Ok m' /\
  register_classdef m late = Err AssertionError /\ register_classdef m' late = Ok m2 /\
  exists a c p b d q, class_of m2 a = Some c /\ In p (props c) /\ class_of m2 b = Some d /\ In q (props d) /\ p_pid p = 65535 /\ p_pid q = 65535 /\ a <> b.
Proof.
  assert (H : holds base_model (fun m => match register_classdef m late, read_dictionary true m [] [] with
    | Err AssertionError, Ok m' => match register_classdef m' late with
        | Ok m2 => match find (fun c => existsb (fun p => p_pid p =? 65535) (props c)) (flat_map (fun x => match class_of m2 (fst x) with Some c => [c] | None => [] end) (m_cauid m2)) with
                   | Some c => negb (c_auid c =? 79) && match class_of m2 (c_auid c), class_of m2 79 with Some c', Some d => existsb (fun p => p_pid p =? 65535) (props c') && existsb (fun p => p_pid p =? 65535) (props d) | _, _ => false end
                   | None => false end
        | Err _ => false end
    | _, _ => false end) = true) by (vm_compute; reflexivity).
  apply base_case in H as (m & B0 & H). pose proof (conj B0 I) as B. clear B0. exists m, [], []. destruct (register_classdef m late) as [|[]] eqn:R0; try discriminate. destruct (read_dictionary true m [] []) as [m'|] eqn:R; [|discriminate].
  destruct (register_classdef m' late) as [m2|] eqn:R2; [|discriminate]. exists m', m2. split; [exact (proj1 B)|]. split; [apply sound_none; constructor|]. split; [apply complete_other; intros c []|]. split; [reflexivity|]. split; [first [exact R0|reflexivity]|]. split; [exact R2|].
  clear B R0 R R2. destruct (find _ _) as [c|]; [|discriminate]. apply andb_prop in H as [H1 H]. destruct (class_of m2 (c_auid c)) as [c'|] eqn:C; [|discriminate]. destruct (class_of m2 79) as [d|] eqn:D; [|discriminate].
  apply andb_prop in H as [H2 H3]. apply existsb_exists in H2 as (p & P1 & P2). apply existsb_exists in H3 as (q & Q1 & Q2). exists (c_auid c), c', p, 79, d, q.
  split; [exact C|]. split; [exact P1|]. split; [exact D|]. split; [exact Q1|]. split; [lia|]. split; [lia|]. intros Y. rewrite Y in H1. discriminate.
Qed.
Print Assumptions C67_claim_refuted.
