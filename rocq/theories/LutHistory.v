(** Histories of an image cache shared by lookup tables and nodes. *)
From Coq Require String.
Import String.StringSyntax.
From Verif Require Import Machine FloatModel PixelModel CacheModel AttrModel HashModel StreamModel GradeModel
  BakeModel NodeModel LutModel LutSpec.

(** A call of get_color_transform_3dlut or get_color_ops_lut. *)
Inductive request :=
| RTransform (from to : list Z) (n : Z)
| ROps (s : stream) (n nc : Z).

Section History.
Context {D : Type}.
Variable p : profile.
Variable X : externals D.

(** What the call is to return: the table made from scratch. *)
Definition wanted (r : request) : Res shared :=
  match r with
  | RTransform from to n => generate_transform_lut p X n 3 from to
  | ROps s n nc => generate_ops_lut p X n nc (st_ops s)
  end.
Definition call (r : request) (c : cache shared) : Res (shared * cache shared) :=
  match r with
  | RTransform from to n => get_transform_lut p X from to n c
  | ROps s n nc => get_ops_lut p X s n nc c
  end.

Local Open Scope string_scope.
(** Values a ColorOpGrade can hold. *)
Definition op_values (o : vals) : Prop :=
  (forall n, (- 2 ^ 31 <= vi o n < 2 ^ 31)%Z) /\ (forall n, (0 <= vf o n < 2 ^ 32)%Z).
(** Every channel the table holds is processed (see C47 for what happens
    otherwise), or none is. *)
Definition op_covers (nc : Z) (o : vals) : Prop :=
  vi o "enable" = 1 ->
  (vi o "process_r" = 0 /\ vi o "process_g" = 0 /\ vi o "process_b" = 0 /\ vi o "process_a" = 0) \/
  (nc = 1 /\ vi o "process_a" <> 0) \/
  (nc = 3 /\ vi o "process_r" <> 0 /\ vi o "process_g" <> 0 /\ vi o "process_b" <> 0).
Local Close Scope string_scope.

(** i32 sizes; source colour space names without a colon. *)
Definition request_ok (r : request) : Prop :=
  match r with
  | RTransform from to n => - 2 ^ 31 <= n < 2 ^ 31 /\ ~ In 58 from
  | ROps s n nc => - 2 ^ 31 <= n < 2 ^ 31 /\ - 2 ^ 31 <= nc < 2 ^ 31
      /\ forall o, In o (st_ops s) -> op_values o /\ op_covers nc o
  end.

(** The byte strings the hashers are fed for a request: the key, and inside it
    the digests of the operations. *)
Definition ops_hashed (ops : list vals) (l : list Z) : Prop :=
  ops_bytes p X ops = Ok l \/ exists o, In o ops /\ grade_hash p (op_block o) = Ok l.
Definition hashed (r : request) (l : list Z) : Prop :=
  match r with
  | RTransform from to n => transform_lut_bytes n from to = l
  | ROps s n nc => ops_lut_bytes p X n nc (st_ops s) = Ok l \/ ops_hashed (st_ops s) l
  end.

(** [used]: all byte strings hashed so far.

    Everything that happens to the cache: tables are requested, nodes store
    images under their keys, and any cache call that inserts nothing. *)
Inductive history (used : list (list Z)) : cache shared -> Prop :=
| h_new cap : history used (with_capacity cap)
| h_request c r img c' : history used c -> request_ok r -> (forall l, hashed r l -> In l used) ->
    call r c = Ok (img, c') -> history used c'
| h_node c t b fr ins l img c' : history used c ->
    cache_hash_bytes p (x_expand X) t b fr ins = Ok l -> In l used ->
    insert image_bytes p c (x_digest X l) img = Ok c' -> history used c'
| h_other c o c' r : history used c -> (forall k v, o <> Insert k v) ->
    step image_bytes p c o = Ok (c', r) -> history used c'.
End History.
