(** SourceClip.walk, src/aaf2/components.py:195-231: from a source clip to the media it refers to. *)
From Verif Require Import Base TimelineModel.
From Coq Require Import ZArith List Bool.
Import ListNotations.
Open Scope Z_scope.

(** components.py: what a slot or a sequence can hold. A source clip has SourceID, SourceMobSlotID and StartTime
    (131-193), None is a property that is not there; a sequence (67-119) has components: is it a Transition, its
    length, and what it is. The numbers tell objects apart. Simplification: lengths are present. *)
Inductive seg :=
  | GClip (mob slot start : option Z)
  | GSeq (cs : list (bool * Z * seg))
  | GEssence (n : Z) | GFiller (n : Z) | GOperation (n : Z) | GPulldown (n : Z)
  | GOther (n : Z).
(** content.py:30-36, mobs.py:79-81: the mobs by id, the slots of each with their ids and segments *)
Definition content := list (Z * list (Z * seg)).

(** components.py:151-169 SourceReference.mob and slot; mobs.py:83-87 slot_at *)
Definition slot_of (C : content) (mob slot : option Z) : result (option seg) :=
  match mob with
  | None => Ok None
  | Some m =>
      if m =? 0 then Ok None
      else match find (fun x => fst x =? m) C with
           | None => Ok None
           | Some x => match slot with
                       | None => Ok None
                       | Some s => do g <- slot_at (snd x) s ;; Ok (Some g)
                       end
           end
  end.
(** components.py:83-84 component_at_time: [components[None]] and comparing None are TypeErrors *)
Definition component_at (cs : list (bool * Z * seg)) (start : option Z) : result seg :=
  match start with
  | None => Err TypeError
  | Some t => match index_at_time (map fst cs) t with
              | None => Err TypeError
              | Some i => match nth_error cs (Z.to_nat i) with Some c => Ok (snd c) | None => Err IndexError end
              end
  end.

(** how a generator stops; [Going] is when the fuel is used up *)
Inductive outcome := Ended | Raised (e : err) | Going.
(** components.py:195-231 walk: what it yields and how it stops. AttributeError is the only exception that is caught and
    none raises it here. Simplification: Python's limit on nested generators is left out. *)
Fixpoint walk (fuel : nat) (C : content) (mob slot start : option Z) : list seg * outcome :=
  match fuel with
  | O => ([], Going)
  | S f =>
      match slot_of C mob slot with
      | Err e => ([], Raised e)
      | Ok None => ([], Ended)
      | Ok (Some g) =>
          match g with
          | GClip m s t => let r := walk f C m s t in (g :: fst r, snd r)
          | GSeq cs =>
              match component_at cs start with
              | Err e => ([], Raised e)
              | Ok (GClip m s t) => let r := walk f C m s t in (GClip m s t :: fst r, snd r)
              | Ok _ => ([], Raised NotImplemented)
              end
          | GEssence _ | GFiller _ | GOperation _ | GPulldown _ => ([g], Ended)
          | GOther _ => ([], Raised NotImplemented)
          end
      end
  end.
