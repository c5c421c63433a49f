(** Model of src/deformer/ldpk_utils.rs 71-163, src/deformer/ldpk_utils.cpp 60-113
    and src/deformer/tde4_classic.rs 40-52, 166-204, 302-330: how names go to the
    lens model and come back.  A Rust string has a length; the lens model reads C
    strings, which end with a zero byte.  Asking does not change what the lens
    model answers (ldpk_utils.rs 35-40 allows more). *)
From Coq Require String.
Import String.StringSyntax.
From Verif Require Import Machine PathModel LutModel LensModel.
Local Open Scope string_scope.

(** A C string: what is before the first zero byte. *)
Fixpoint before_zero (s : list Z) : option (list Z) :=
  match s with
  | [] => None
  | b :: t => if b =? 0 then Some [] else
      match before_zero t with Some n => Some (b :: n) | None => None end
  end.
(** ldpk_utils.cpp 87, 95, 103, 110 [identifier.data()]: the length of the string
    is dropped; [beyond] is what the memory after it has before the next zero. *)
Definition heard (beyond s : list Z) : list Z :=
  match before_zero s with Some n => n | None => s ++ beyond end.

(** String::from_utf8_lossy (ldpk_utils.rs 78, 106): core's Utf8Chunks; every
    maximal part that cannot be continued becomes U+FFFD. *)
Definition replacement : list Z := [239; 191; 189].
Definition between (lo hi b : Z) : bool := (lo <=? b) && (b <=? hi).
Definition follows (b : Z) : bool := between 128 191 b.
Definition second_of_three (a b : Z) : bool :=
  ((a =? 224) && between 160 191 b) || (between 225 236 a && follows b) ||
  ((a =? 237) && between 128 159 b) || (between 238 239 a && follows b).
Definition second_of_four (a b : Z) : bool :=
  ((a =? 240) && between 144 191 b) || (between 241 243 a && follows b) ||
  ((a =? 244) && between 128 143 b).
Fixpoint lossy (s : list Z) : list Z :=
  match s with
  | [] => []
  | a :: s1 =>
      if a <? 128 then a :: lossy s1
      else if between 194 223 a then
        match s1 with
        | b :: s2 => if follows b then a :: b :: lossy s2 else (replacement ++ lossy s1)%list
        | [] => replacement
        end
      else if between 224 239 a then
        match s1 with
        | b :: s2 =>
            if second_of_three a b then
              match s2 with
              | c :: s3 => if follows c then a :: b :: c :: lossy s3 else (replacement ++ lossy s2)%list
              | [] => replacement
              end
            else (replacement ++ lossy s1)%list
        | [] => replacement
        end
      else if between 240 244 a then
        match s1 with
        | b :: s2 =>
            if second_of_four a b then
              match s2 with
              | c :: s3 =>
                  if follows c then
                    match s3 with
                    | d :: s4 => if follows d then a :: b :: c :: d :: lossy s4 else (replacement ++ lossy s3)%list
                    | [] => replacement
                    end
                  else (replacement ++ lossy s2)%list
              | [] => replacement
              end
            else (replacement ++ lossy s1)%list
        | [] => replacement
        end
      else (replacement ++ lossy s1)%list
  end.

(** ldpk_utils.rs 72, 100: a buffer of 100 zero bytes into which a C string is
    written (ldpk_utils.cpp 60-67, 74-82); one that is too long is written past
    the end of the buffer, which is taken for the end of the process. *)
Definition buffer (name : list Z) : Res (list Z) :=
  if (length name <? 100)%nat then Ok (name ++ repeat 0 (100 - length name))%list else Panic.
(** ldpk_utils.rs 71-84, 99-112 followed by the [unwrap]s of
    tde4_classic.rs 304 and 308: the whole buffer is the string. *)
Definition given (answer : option (list Z)) : Res (list Z) :=
  match answer with Some name => let* b := buffer name in Ok (lossy b) | None => Panic end.
Definition unwrap {A} (o : option A) : Res A := match o with Some a => Ok a | None => Panic end.

(** What the lens model (tde4_ld_plugin) answers about itself; the names are C
    strings, the numbers bits of an f64. *)
Record lens_info := Info {
  li_model : option (list Z);
  li_count : option Z;
  li_name : Z -> option (list Z);
  li_type : list Z -> option Z;
  li_default : list Z -> option Z;
  li_range : list Z -> option (Z * Z) }.

Section Text.
(** What follows a string in memory, and the printing of a type and a number
    (tde4_classic.rs 319-323). *)
Variable beyond : list Z -> list Z.
Variable show_type : Z -> list Z.
Variable show_f64 : Z -> list Z.
Variable I : lens_info.

(** tde4_classic.rs 308-325: one parameter; 1 is Double and 5 AdjustableDouble
    (cxxbridge.rs 337-349). *)
Definition parameter_text (i : Z) : Res (list Z) :=
  let* name := given (li_name I i) in
  let asked := heard (beyond name) name in
  let* ty := unwrap (li_type I asked) in
  if (ty =? 1) || (ty =? 5) then
    let* dv := unwrap (li_default I asked) in
    let* r := unwrap (li_range I asked) in
    Ok (ascii_bytes "name=" ++ name ++ ascii_bytes " type=" ++ show_type ty ++ ascii_bytes " default_value=" ++ show_f64 dv ++
        ascii_bytes " range=" ++ show_f64 (fst r) ++ ascii_bytes " to " ++ show_f64 (snd r))%list
  else Ok (ascii_bytes "name=" ++ name ++ ascii_bytes " type=" ++ show_type ty)%list.
(** tde4_classic.rs 307-328: the loop; [index as i32] for the calls. *)
Fixpoint parameters_text (i : Z) (n : nat) : Res (list Z) :=
  match n with
  | O => Ok []
  | S n' =>
      let* line := parameter_text (wrap_i32 i) in
      let* rest := parameters_text (i + 1) n' in
      Ok (line ++ rest)%list
  end.
(** tde4_classic.rs 302-330; [value as u32] of the number (ldpk_utils.rs 94). *)
Definition lens_text : Res (list Z) :=
  let* model := given (li_model I) in
  let* count := unwrap (li_count I) in
  let num := count mod 2 ^ 32 in
  let* l := parameters_text 0 (Z.to_nat num) in
  Ok (ascii_bytes "Model=" ++ model ++ ascii_bytes " number of params=" ++ digits num ++ l)%list.
End Text.

(** tde4_classic.rs 40-52: the names with their terminating zero byte. *)
Definition said (name : string) : list Z := (ascii_bytes name ++ [0])%list.
(** tde4_classic.rs 166-204 with the names as they arrive. *)
Section Said.
Context {L : Type}.
Variable hear : L -> list Z -> Z -> option L.
Variable beyond : list Z -> list Z.
Fixpoint say_all (v : StreamModel.vals) (ps : list (string * string)) (l : L) : Res L :=
  match ps with
  | [] => Ok l
  | (name, field) :: t =>
      match hear l (heard (beyond (said name)) (said name)) (StreamModel.vf v field) with
      | Some l => say_all v t l
      | None => Panic
      end
  end.
End Said.
