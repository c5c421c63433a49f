(** Pictures that are not shared at all: every holder has its own. *)
From Verif Require Import Machine ShareModel.

Section Own.
Context {V : Type}.
Inductive owns : list (action V) -> list (option V) -> Prop :=
| ow_none : owns [] []
| ow_make xs l v : owns xs l -> owns (xs ++ [Make v]) (l ++ [Some v])
| ow_copy xs l h v : owns xs l -> nth_error l h = Some (Some v) -> owns (xs ++ [Copy h]) (l ++ [Some v])
| ow_take xs l l' h k v w : owns xs l -> h <> k -> nth_error l h = Some (Some v) -> nth_error l k = Some (Some w) -> length l' = length l ->
    nth_error l' h = Some (Some w) -> nth_error l' k = Some None -> (forall i, i <> h -> i <> k -> nth_error l' i = nth_error l i) -> owns (xs ++ [Take h k]) l'
| ow_write xs l l' h v f : owns xs l -> nth_error l h = Some (Some v) -> length l' = length l ->
    nth_error l' h = Some (Some (f v)) -> (forall i, i <> h -> nth_error l' i = nth_error l i) -> owns (xs ++ [Write h f]) l'
| ow_drop xs l l' h v : owns xs l -> nth_error l h = Some (Some v) -> length l' = length l ->
    nth_error l' h = Some None -> (forall i, i <> h -> nth_error l' i = nth_error l i) -> owns (xs ++ [Drop h]) l'.
End Own.

(** What the holder numbered [h] has, and how many have something. *)
Definition has {V} (l : list (option V)) (h : nat) : option V := match nth_error l h with Some o => o | None => None end.
Definition in_use {V} (l : list (option V)) : nat := length (filter (fun o => match o with Some _ => true | None => false end) l).
