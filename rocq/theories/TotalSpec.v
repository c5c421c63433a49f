(** Vocabulary for "a tidy graph always succeeds". *)
From Coq Require String.
Import String.StringSyntax.
From Verif Require Import Machine BBoxModel PixelModel EnumModel AttrModel HashModel HashSpec StreamModel NodeModel GraphModel GraphSpec SafeSpec WriteSpec.
Local Open Scope string_scope.

(** Resampling a fine picture succeeds. *)
Definition resampler_works {D} (x : externals D) (B : bbox) : Prop :=
  forall src f i, fine_image B src -> f <> 0 -> fst (x_resample x src empty_image f i) = true.

(** No node that contributes writes a file. *)
Definition writes_nothing (g : graph node stream) (start : nat) : Prop :=
  forall i n, reaches (g_graph g) i start -> nth_error (g_nodes g) i = Some n -> silent n.

(** No node that contributes resamples. *)
Definition resamples_nothing (g : graph node stream) (start : nat) : Prop :=
  forall i n, reaches (g_graph g) i start -> nth_error (g_nodes g) i = Some n -> nd_type n = TResample ->
    node_get_i32 n "enable" <> 1 \/ node_get_i32 n "factor" = 0.
