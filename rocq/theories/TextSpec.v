(** Texts as the model has them: lists of bytes. *)
From Coq Require String Ascii.
From Verif Require Import Machine.

Definition bytes_of (s : String.string) : list Z := map (fun a => Z.of_N (Ascii.N_of_ascii a)) (String.list_ascii_of_string s).
