(** Independent specification of frame padding. *)
From Verif Require Import Machine Loops.

(** A path splits into a prefix without '#', the first run of [n] '#', and a
    rest that does not start with '#'. *)
Definition first_run (path pre : list Z) (n : Z) (post : list Z) : Prop :=
  0 <= n /\
  path = pre ++ repeat 35 (Z.to_nat n) ++ post /\
  ~ In 35 pre /\
  match post with [] => True | c :: _ => c <> 35 end.

(** Reading a decimal number. *)
Definition is_digit (c : Z) : bool := (48 <=? c) && (c <=? 57).
Fixpoint read_digits (acc : Z) (s : list Z) : option Z :=
  match s with
  | [] => Some acc
  | c :: r => if is_digit c then read_digits (acc * 10 + (c - 48)) r else None
  end.
Definition read_number (s : list Z) : option Z :=
  match s with
  | [] => None
  | c :: r => if c =? 45 then
                match r with [] => None | _ => option_map Z.opp (read_digits 0 r) end
              else read_digits 0 s
  end.

(** [t] is [frame] written with at least [n] characters, padded only when the
    number itself is shorter: longer than [n] only if there is no leading zero. *)
Definition leading_zero (t : list Z) : Prop :=
  match t with
  | 48 :: _ :: _ => True
  | 45 :: 48 :: _ => True
  | _ => False
  end.
Definition padded (n frame : Z) (t : list Z) : Prop :=
  read_number t = Some frame /\ n <= zlen t /\ (zlen t > n -> ~ leading_zero t).

Definition in_i32 (z : Z) : Prop := - 2 ^ 31 <= z < 2 ^ 31.

(** Lexicographic order of byte strings. *)
Fixpoint lex_lt (s t : list Z) : Prop :=
  match s, t with
  | [], [] => False
  | [], _ :: _ => True
  | _ :: _, [] => False
  | a :: s', b :: t' => a < b \/ (a = b /\ lex_lt s' t')
  end.
