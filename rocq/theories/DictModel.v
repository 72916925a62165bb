(** The dictionary of definitions, src/aaf2/dictionary.py: lookups by name, registration and the merge of another
    file's dictionary. Identifiers are numbers; str.lower is any function. What a call that raises has
    changed before is not shown. *)
From Verif Require Import Base Codec Text TypesModel MetaModel.
From Coq Require Import ZArith List Bool String.
Import ListNotations.
Open Scope Z_scope.

(** dictionary.py:104-193: the classes of definitions; [DPlugin] has a set in the file format, but none of the
    methods here uses it *)
Inductive kind := DData | DContainer | DCodec | DParam | DOper | DInter | DTagged | DPlugin.
(** isinstance of the class *)
Definition kind_eqb (a b : kind) : bool :=
  match a, b with
  | DData, DData | DContainer, DContainer | DCodec, DCodec | DParam, DParam | DOper, DOper
  | DInter, DInter | DTagged, DTagged | DPlugin, DPlugin => true
  | _, _ => false
  end.
(** dictionary.py:39-102 a definition: Identification, Name, and the weak references to other definitions: DataDefinition
    and ParametersDefined of an operation (109-139), DataDefinitions of a codec (168-178). None is a property that the
    object does not have. Simplification: the other properties, among them references to types and classes, are left
    out. *)
Record def := Def { d_kind : kind; d_auid : Z; d_name : option (list Z); d_data : option Z; d_params : option (list Z); d_codec : option (list Z) }.
(** dictionary.py:194-281 Dictionary: the strong reference sets by kind, in order; None is a property that is not there *)
Definition dictionary := kind -> option (list (Z * def)).
(** self[key].items(): a property that is not there is made empty *)
Definition entries (D : dictionary) (k : kind) : list (Z * def) := match D k with Some l => l | None => [] end.
(** self[key].append(d), properties.py:869-905: a key that is there keeps its place *)
Definition append (D : dictionary) (k : kind) (d : def) : dictionary :=
  fun j => if kind_eqb k j then Some (dict_set Z.eqb (entries D k) (d_auid d) d) else D j.

(** dictionary.py:15-18 short_name *)
Definition short_name (n : list Z) : list Z := del_sub (codes "ContainerDef_") (del_sub (codes "DataDef_") n).
(** dictionary.py:58-62, 33: value.short_name or '' *)
Definition shown (d : def) : list Z := match d_name d with Some (c :: s) => short_name (c :: s) | _ => [] end.
(** what lookup_def is given: an AUID or UUID, an object, or a name *)
Inductive query := ById (a : Z) | ByObject (d : def) | ByName (n : list Z).

Section Code.
(** str.lower *)
Variable lower : list Z -> list Z.
(** dictionary.py:20-37 lookup_def; an object of another class has no method replace *)
Definition lookup_def (D : dictionary) (k : kind) (q : query) : result (option def) :=
  match q with
  | ById a => Ok (dict_get Z.eqb (entries D k) a)
  | ByObject d => if kind_eqb (d_kind d) k then Ok (Some d) else Err GenericError
  | ByName n => match find (fun x => zlist_eqb (lower (short_name n)) (lower (shown (snd x)))) (entries D k) with
                | Some x => Ok (Some (snd x))
                | None => Err GenericError
                end
  end.
End Code.

(** dictionary.py:216-233 register_def *)
Definition register_def (D : dictionary) (d : def) : result dictionary :=
  match d_kind d with
  | DPlugin => Err ValueError
  | k => Ok (append D k d)
  end.

(** file.py:285-294 weakref_prop: the set has to be there *)
Definition target (D : dictionary) (k : kind) : result (list (Z * def)) := match D k with Some l => Ok l | None => Err KeyError end.
(** properties.py:1108-1125 WeakRefArrayProperty.copy into another file *)
Definition copy_refs (D : dictionary) (k : kind) (refs : option (list Z)) : result unit :=
  match refs with
  | None => Ok tt
  | Some l => do t <- target D k ;; guard forallb (fun r => existsb (Z.eqb r) (map fst t)) l else AssertionError ;; Ok tt
  end.
(** properties.py:1008-1033 WeakRefProperty.copy into another file: what is missing there is copied too *)
Definition copy_ref (D other : dictionary) (k : kind) (ref : option Z) : result dictionary :=
  match ref with
  | None => Ok D
  | Some r => do t <- target D k ;;
      if existsb (Z.eqb r) (map fst t) then Ok D
      else match dict_get Z.eqb (entries other k) r with Some v => Ok (append D k v) | None => Err KeyError end
  end.
(** core.py:249-280 other_def.copy(root): the references of the copy, in the order Data, Parameters, Codec. Simplification:
    the order is that of the object's properties, which only matters for which exception comes first. *)
Definition copy_def (D other : dictionary) (d : def) : result dictionary :=
  do D <- copy_ref D other DData (d_data d) ;; do _ <- copy_refs D DParam (d_params d) ;; do _ <- copy_refs D DData (d_codec d) ;; Ok D.

(** the references of a property, none if it is not there *)
Definition refs_of (r : option (list Z)) : list Z := match r with Some l => l | None => [] end.
(** dictionary.py:275-281: an operation that is there has to have the parameters of the other; adding one
    calls a method append that operations do not have *)
Fixpoint check_params (D other : dictionary) (own : list Z) (l : list Z) : result unit :=
  match l with
  | [] => Ok tt
  | r :: l =>
      match dict_get Z.eqb (entries other DParam) r with
      | None => Err KeyError
      | Some p => match dict_get Z.eqb (entries D DParam) (d_auid p) with
          | None => Err GenericError
          | Some q => if existsb (Z.eqb (d_auid q)) own then check_params D other own l else Err GenericError
          end
      end
  end.
(** dictionary.py:272-281 the body of the loop of update *)
Definition update_one (other : dictionary) (k : kind) (D : dictionary) (o : def) : result dictionary :=
  match dict_get Z.eqb (entries D k) (d_auid o) with
  | None => do D <- copy_def D other o ;; Ok (append D k o)
  | Some d => match k with
              | DOper => do _ <- check_params D other (refs_of (d_params d)) (refs_of (d_params o)) ;; Ok D
              | _ => Ok D
              end
  end.
(** dictionary.py:271 for other_def in other[def_type].values() *)
Fixpoint update_all (other : dictionary) (k : kind) (D : dictionary) (l : list (Z * def)) : result dictionary :=
  match l with [] => Ok D | (_, o) :: l => do D <- update_one other k D o ;; update_all other k D l end.
(** dictionary.py:263-269 *)
Definition update_order : list kind := [DData; DContainer; DCodec; DParam; DOper; DInter; DTagged].
(** dictionary.py:263 for def_type in *)
Fixpoint update_kinds (other : dictionary) (ks : list kind) (D : dictionary) : result dictionary :=
  match ks with [] => Ok D | k :: ks => do D <- update_all other k D (entries other k) ;; update_kinds other ks D end.
(** dictionary.py:259-281 update with the dictionary of another file *)
Definition update (D other : dictionary) : result dictionary := update_kinds other update_order D.
