(** Model of the thread setting around reading and writing: src/imageio.rs
    42-90 and 91-175 (the OpenImageIO branches, the only ones taken),
    src/imageio.cpp 39-45, src/node/read_image.rs 154-155 and 174-175,
    src/node/write_image.rs 190-207, src/config.rs 66-92.

    The image library is a state [L] with a global setting; what it reads and
    writes is a parameter.  The crop before writing does not involve it. *)
From Verif Require Import Machine.

(** config.rs 84-89; the cache section is ConfigModel. *)
Record config := Config { cf_threads : Z }.

Section Threads.
Context {L Q A : Type}.
(** imageio.cpp 39-41: OIIO::getattribute; [None]: it fails and leaves the
    variable alone. *)
Variable get : L -> option Z.
(** imageio.cpp 43-45: OIIO::attribute; the code ignores whether it succeeds. *)
Variable set : L -> Z -> L.
(** [oiio_read_image] or [oiio_write_image] of a request. *)
Variable perform : L -> Q -> L * A.

(** imageio.rs 58-63 and 134-141 *)
Definition with_threads (l : L) (num_threads : Z) (q : Q) : L * A :=
  let old := match get l with Some n => n | None => 0 end in
  let l := set l num_threads in
  let (l, a) := perform l q in
  (set l old, a).

(** read_image.rs 154-155, 174-175; write_image.rs 190, 207: the count is the
    literal 0 and the configuration is not consulted. *)
Definition node_request (c : config) (l : L) (q : Q) : L * A := with_threads l 0 q.

(** The requests of a session, one after the other. *)
Fixpoint session (c : config) (l : L) (qs : list Q) : L * list A :=
  match qs with
  | [] => (l, [])
  | q :: t => let (l, a) := node_request c l q in
              let (l, r) := session c l t in (l, a :: r)
  end.
End Threads.
