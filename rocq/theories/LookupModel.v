(** Model of src/config.rs 32-89, 91-95 and 119-156: where the configuration
    comes from.  Strings and paths are lists of bytes (Unix: OsString is any
    bytes, String is UTF-8). *)
From Coq Require Import Floats.SpecFloat.
From Verif Require Import Machine Loops FloatModel ConfigModel.

(** config.rs 35-43, 66-70, 84-89 *)
Record config := Config { cf_percent : f32; cf_threads : Z }.

(** config.rs 45-51, 72-76, 84: Default *)
Definition config_default : config := Config f32_zero 0.

(** What the process sees; the trusted base of this file. *)
Record surroundings := Around {
  ar_var : option (list Z);           (* env::var_os("OPENCOMPGRAPH_CONFIG_PATH") *)
  ar_is_file : list Z -> bool;        (* Path::is_file *)
  ar_utf8 : list Z -> bool;           (* Path::to_str is Some *)
  ar_contents : list Z -> option (list Z);    (* fs::read_to_string *)
  ar_parse : list Z -> option config }.       (* serde_yaml::from_str *)

Definition colon : Z := 58.
Definition slash : Z := 47.

(** std::env::split_paths on Unix: split at every ':'; an empty value is one
    empty path. *)
Fixpoint split_paths (s : list Z) : list (list Z) :=
  match s with
  | [] => [[]]
  | c :: r =>
      if c =? colon then [] :: split_paths r
      else match split_paths r with
           | d :: ds => (c :: d) :: ds
           | [] => [[c]]
           end
  end.

(** PathBuf::push on Unix: an absolute path replaces, else a separator is
    added unless the path is empty or ends with one. *)
Definition push (dir name : list Z) : list Z :=
  match name with
  | c :: _ => if c =? slash then name
              else match rev dir with
                   | [] => name
                   | l :: _ => if l =? slash then dir ++ name else dir ++ slash :: name
                   end
  | [] => match rev dir with
          | [] => []
          | l :: _ => if l =? slash then dir else dir ++ [slash]
          end
  end.

(** config.rs 125-139: the loop; the empty string when nothing is found. *)
Fixpoint search (A : surroundings) (name : list Z) (dirs : list (list Z)) : list Z :=
  match dirs with
  | [] => []
  | d :: ds =>
      let path := push d name in
      if ar_is_file A path then
        if ar_utf8 A path then path (* break *) else search A name ds
      else search A name ds
  end.

(** config.rs 120-144 *)
Definition get_config_path (A : surroundings) (name : list Z) : list Z :=
  match ar_var A with
  | Some paths => search A name (split_paths paths)
  | None => []
  end.

(** config.rs 91-95: a file that cannot be read panics, one that cannot be
    parsed is the error. *)
Definition load_config (A : surroundings) (path : list Z) : Res (option config) :=
  match ar_contents A path with
  | Some text => Ok (ar_parse A text)
  | None => Panic
  end.

(** config.rs 146-156 *)
Definition get_config (A : surroundings) (name : list Z) : Res config :=
  match get_config_path A name with
  | [] => Ok config_default
  | path =>
      let* r := load_config A path in
      match r with Some c => Ok c | None => Panic end
  end.
