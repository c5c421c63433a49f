(** A concrete outside world for examples: an in-memory disk, no colour
    management, no lens plug-in, identity resampling. *)
From Coq Require String.
Import String.StringSyntax.
From Coq Require Import Floats.SpecFloat.
From Verif Require Import Machine CacheModel FloatModel BBoxModel PixelModel AttrModel HashModel StreamModel
  DeformModel BakeModel NodeModel.

Definition disk := list (list Z * shared).
Fixpoint disk_find (path : list Z) (d : disk) : option shared :=
  match d with [] => None | (p, i) :: t => if bytes_eqb p path then Some i else disk_find path t end.

Definition demo_digest (l : list Z) : Z :=
  fold_left (fun h b => (h * 1099511628211 + b + 1) mod two64) l 14695981039346656037.
Definition demo_numerics : numerics :=
  Numerics (fun a _ => a) (fun _ => f32_one) (fun _ => f32_zero) (fun _ => None)
           (fun _ _ q => q) (fun _ _ b => b).
Definition demo : externals disk :=
  Externals (fun l => l) demo_digest demo_numerics
    (fun px _ _ _ _ _ _ _ => None)
    (fun src _ _ _ => (true, src))
    (fun _ => true)
    (fun d path => match disk_find path d with Some _ => RegularFile | None => NoEntry end)
    (fun d path img => match disk_find path d with Some i => i | None => img end)
    (fun d path img _ => ((path, img) :: d, true)).
Definition demo_world (d : disk) (cap : Z) : world disk := World (with_capacity cap) d.
