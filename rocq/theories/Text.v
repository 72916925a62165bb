(** Python text operations used by the identifier and name code: strings are lists of code points. *)
From Verif Require Import Base.
From Coq Require Import ZArith List Bool String Ascii.
Import ListNotations.
Open Scope Z_scope.

(** A string literal of the code as code points *)
Fixpoint codes (s : string) : list Z :=
  match s with
  | EmptyString => []
  | String c t => Z.of_nat (nat_of_ascii c) :: codes t
  end.

(** one hexadecimal digit, lower case as in "%x" *)
Definition hex_char (d : Z) : Z := if d <? 10 then 48 + d else 87 + d.

(** the value of a hexadecimal digit of either case *)
Definition hex_val (c : Z) : option Z :=
  if (48 <=? c) && (c <=? 57) then Some (c - 48)
  else if (97 <=? c) && (c <=? 102) then Some (c - 87)
  else if (65 <=? c) && (c <=? 70) then Some (c - 55)
  else None.

(** "%0Wx" % n for n < 16^W: exactly W digits *)
Fixpoint hexw (w : nat) (n : Z) : list Z :=
  match w with
  | O => []
  | S w' => hexw w' (n / 16) ++ [hex_char (n mod 16)]
  end.

(** "%x" % n for n >= 0 *)
Fixpoint hex_go (fuel : nat) (n : Z) : list Z :=
  match fuel with
  | O => []
  | S f => if n <? 16 then [hex_char n] else hex_go f (n / 16) ++ [hex_char (n mod 16)]
  end.
(** hex(n) without the prefix *)
Definition hex_str (n : Z) : list Z := hex_go (S (Z.to_nat (Z.log2 n))) n.

(** "%0Wx" % n for any n >= 0: at least W digits *)
Definition hex_pad (w : nat) (n : Z) : list Z :=
  let s := hex_str n in repeat 48 (w - List.length s) ++ s.

(** str.startswith *)
Fixpoint is_prefix (p s : list Z) : bool :=
  match p, s with
  | [], _ => true
  | a :: p', b :: s' => (a =? b) && is_prefix p' s'
  | _ :: _, [] => false
  end.

(** s.replace(old, ''): non-overlapping occurrences from the left *)
Fixpoint del_go (old : list Z) (skip : nat) (s : list Z) : list Z :=
  match s with
  | [] => []
  | c :: t =>
    match skip with
    | S k => del_go old k t
    | O => if is_prefix old s then del_go old (List.length old - 1) t else c :: del_go old O t
    end
  end.
(** str.replace(old, "") *)
Definition del_sub (old s : list Z) : list Z := del_go old O s.

(** s.strip(chars) *)
Fixpoint lstrip (cs s : list Z) : list Z :=
  match s with
  | [] => []
  | c :: t => if existsb (Z.eqb c) cs then lstrip cs t else s
  end.
(** str.strip(chars) *)
Definition strip (cs s : list Z) : list Z := rev (lstrip cs (rev (lstrip cs s))).

(** str.lower on the ASCII letters; other characters are left alone (simplification: only ASCII
    text can be an identifier) *)
Definition lower (s : list Z) : list Z := map (fun c => if (65 <=? c) && (c <=? 90) then c + 32 else c) s.

(** int(s, 16) of a string of hexadecimal digits. Simplification: Python also accepts blanks
    around the digits, a sign and underscores; the model refuses them. *)
Fixpoint hex_fold (acc : Z) (s : list Z) : result Z :=
  match s with
  | [] => Ok acc
  | c :: t => match hex_val c with Some v => hex_fold (acc * 16 + v) t | None => Err ValueError end
  end.
(** int(s, 16) *)
Definition int16 (s : list Z) : result Z := match s with [] => Err ValueError | _ => hex_fold 0 s end.

(** bytearray.fromhex: pairs of digits; blanks are skipped between pairs *)
Definition is_space (c : Z) : bool := (c =? 32) || ((9 <=? c) && (c <=? 13)).
(** bytes.fromhex *)
Fixpoint fromhex (s : list Z) : result (list Z) :=
  match s with
  | [] => Ok []
  | c :: t =>
    if is_space c then fromhex t else
    match t with
    | [] => Err ValueError
    | d :: r =>
      match hex_val c, hex_val d with
      | Some a, Some b => do l <- fromhex r ;; Ok (a * 16 + b :: l)
      | _, _ => Err ValueError
      end
    end
  end.
