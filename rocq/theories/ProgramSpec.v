(** What a C++ program has set up, read off its calls alone, and the picture that
    follows.  Nothing here mentions a graph. *)
From Coq Require String.
Import String.StringSyntax.
From Coq Require Import Sorted Floats.SpecFloat.
From Verif Require Import Machine CacheModel BBoxModel AttrModel EnumModel StreamModel GraphModel NodeModel ViewSpec SafeSpec SceneSpec FinishSpec EachSpec SoundSpec ClientModel ClientSpec ClientSpec2.
Local Open Scope string_scope.

(** Node [id] of graph [i]: created by the first call that creates it, then
    changed by every setting made under its id. *)
Definition describe (i : nat) (id : Z) (so_far : option node) (e : ccall * reply) : option node :=
  match fst e, so_far with
  | CCreate j t how, None => if Nat.eqb j i && (creation_id how =? id) then Some (create_node t id) else None
  | CSet j m w, Some n => if Nat.eqb j i && (hd_id m =? id) then Some (node_write n w) else Some n
  | _, _ => so_far
  end.
Definition described (i : nat) (h : list (ccall * reply)) (id : Z) : option node := fold_left (describe i id) h None.

(** What feeds input [slot] of [dst]: what was connected last, until it is
    disconnected or one of the two is deleted. *)
Definition rewire (i : nat) (dst slot : Z) (so_far : option Z) (e : ccall * reply) : option Z :=
  match fst e with
  | CConnect j a b s => if Nat.eqb j i && (hd_id b =? dst) && (s =? slot) then Some (hd_id a) else so_far
  | CDisconnect j b s => if Nat.eqb j i && (hd_id b =? dst) && (s =? slot) then None else so_far
  | CDelete j n => if Nat.eqb j i && ((hd_id n =? dst) || match so_far with Some a => a =? hd_id n | None => false end) then None else so_far
  | _ => so_far
  end.
Definition connected (i : nat) (h : list (ccall * reply)) (src dst slot : Z) : Prop :=
  fold_left (rewire i dst slot) h None = Some src.

(** The input of [dst] that was connected last. *)
Definition latest (i : nat) (dst : Z) (so_far : option Z) (e : ccall * reply) : option Z :=
  match fst e with
  | CConnect j _ b s => if Nat.eqb j i && (hd_id b =? dst) then Some s else so_far
  | _ => so_far
  end.
Definition last_input (i : nat) (h : list (ccall * reply)) (dst : Z) : option Z := fold_left (latest i dst) h None.

(** Input [slot] is the only one connected, or the one connected last. *)
Definition loose (i : nat) (h : list (ccall * reply)) (dst slot : Z) : Prop :=
  (forall s src, connected i h src dst s -> s = slot) \/ last_input i h dst = Some slot.

Definition gone (i : nat) (h : list (ccall * reply)) (id : Z) : Prop := exists n r, In (CDelete i n, r) h /\ hd_id n = id.

(** The program builds: every id is created once, connections are between
    different nodes that exist, at most one between two nodes, and only loose
    inputs are connected anew or disconnected. *)
Definition builds (i : nat) (h : list (ccall * reply)) (call : ccall) : Prop :=
  match call with
  | CCreate j t how => j = i -> described i h (creation_id how) = None
  | CDelete j n => j = i -> described i h (hd_id n) <> None
  | CDisconnect j b slot => j = i -> forall src, connected i h src (hd_id b) slot -> loose i h (hd_id b) slot
  | CConnect j a b slot => j = i ->
      hd_id a <> hd_id b /\ described i h (hd_id a) <> None /\ described i h (hd_id b) <> None /\
      (forall src, connected i h src (hd_id b) slot -> loose i h (hd_id b) slot) /\ (forall s, connected i h (hd_id a) (hd_id b) s -> s = slot)
  | _ => True
  end.
Definition only_builds (i : nat) (h : list (ccall * reply)) : Prop :=
  forall h1 call r h2, h = (h1 ++ (call, r) :: h2)%list -> builds i h1 call.

(** What is connected to [id], in the order of the inputs. *)
Definition fed_by (i : nat) (h : list (ccall * reply)) (id : Z) (l : list Z) : Prop :=
  exists ss : list (Z * Z), l = map snd ss /\ StronglySorted Z.lt (map fst ss) /\
    forall s src, In (s, src) ss <-> connected i h src id s.

(** [a] is [id] or is connected to [id] directly or through other nodes. *)
Inductive above (i : nat) (h : list (ccall * reply)) (id : Z) : Z -> Prop :=
| above_here : above i h id id
| above_more a b s : above i h id b -> connected i h a b s -> above i h id a.

(** The part above [id] is a tree, or has levels. *)
Definition shaped (i : nat) (h : list (ccall * reply)) (id : Z) : Prop :=
  ((forall a b b' s s', above i h id b -> above i h id b' -> connected i h a b s -> connected i h a b' s' -> b = b') /\
   (forall b s, above i h id b -> ~ connected i h id b s)) \/
  (exists level : Z -> nat, forall a b s, above i h id b -> connected i h a b s -> level a = S (level b)).

(** All nodes are set sensibly. *)
Definition all_careful p (B : bbox) (i : nat) (h : list (ccall * reply)) : Prop :=
  forall id n l, described i h id = Some n -> fed_by i h id l -> careful p B n (length l).

(** All nodes above [id] are used for their picture. *)
Definition all_used (i : nat) (h : list (ccall * reply)) (id : Z) : Prop :=
  forall a n l, above i h id a -> described i h a = Some n -> fed_by i h a l ->
    (length l <= uses (nd_type n))%nat /\
    (nd_type n = TViewer -> node_get_i32 n "enable" = 1 /\
       exists o, In o [BakeNothing; BakeColorSpace; BakeColorSpaceAndGrade] /\ told_to_bake (nd_attrs n) o).

(** Node [id] shows the picture [v], with the files [d], at frame [fr]. *)
Inductive drawn {D} (x : externals D) p (d : D) (fr : spec_float) (i : nat) (h : list (ccall * reply)) : Z -> stream -> Prop :=
| drawn_node id n l vs v : described i h id = Some n -> fed_by i h id l -> Forall2 (drawn x p d fr i h) l vs ->
    draws x p d fr n vs v -> drawn x p d fr i h id v.

(** An active writer [id] with one input [src]. *)
Definition writing (i : nat) (h : list (ccall * reply)) (id : Z) (n : node) (src : Z) : Prop :=
  described i h id = Some n /\ nd_type n = TWrite /\ node_get_i32 n "enable" <> 0 /\ node_get_i32 n "execute" <> 0 /\
  fed_by i h id [src].
(** The file it writes. *)
Definition outcome {D} (x : externals D) p (d : D) (fr : spec_float) (i : nat) (h : list (ccall * reply)) (id : Z) (o : order) : Prop :=
  let '(path, img, co) := o in exists n src s, writing i h id n src /\ drawn x p d fr i h src s /\ filed x fr n s path img co.

(** A program that executes only what it has built sensibly, gives its caches
    capacities with room for the largest picture, and makes only lookup tables of
    three channels that are not larger than the area. *)
Definition neat_table (B : bbox) (n : Z) : Prop := 2 <= n <= 894 /\ n * n <= max_x B /\ n + 1 <= max_y B.
Definition neat_call p (B : bbox) (h : list (ccall * reply)) (call : ccall) : Prop :=
  match call with
  | CExecute i _ _ _ | CExecuteWhole i _ _ _ => only_builds i h /\ all_careful p B i h
  | CSetCapacity _ v => 0 <= v < two64 /\ (p = Debug -> (v = 0 \/ largest B <= v) /\ v + largest B < two64)
  | CTransformTable _ _ n _ => neat_table B n
  | COpsTable _ n nc _ => neat_table B n /\ nc = 3
  | _ => True
  end.

Inductive neat_past {D} p (x : externals D) (E : setting D) srt (B : bbox) (ok_disk : D -> Prop) : list (ccall * reply) -> client D -> Prop :=
| np_new d : disk_ok x E d -> ok_disk d -> neat_past p x E srt B ok_disk [] (client_new d)
| np_call h cl fuel call cl' r : neat_past p x E srt B ok_disk h cl -> tame_call p x E srt cl fuel call -> neat_call p B h call ->
    client_call p x srt fuel cl call = Some (Ok (cl', r)) -> neat_past p x E srt B ok_disk (h ++ [(call, r)]) cl'
| np_files h cl d : neat_past p x E srt B ok_disk h cl -> disk_ok x E d -> ok_disk d ->
    neat_past p x E srt B ok_disk h (Client (cl_graphs cl) (cl_caches cl) d).

(** The two calls that execute, with any of the caches of the program. *)
Definition runs (call : ccall) (i : nat) (n : handle) (frames : list spec_float) : Prop :=
  exists k, call = CExecute i n frames k \/ exists zs, call = CExecuteWhole i n zs k /\ frames = map FrameModel.f64_of_Z zs.

(** No two writers, and no writer at two frames, write to the same place. *)
Definition apart (of : spec_float -> Z -> order -> Prop) (frames : list spec_float) : Prop :=
  forall fr1 fr2 a1 a2 o1 o2, In fr1 frames -> In fr2 frames -> of fr1 a1 o1 -> of fr2 a2 o2 ->
  place o1 = place o2 -> fr1 = fr2 /\ a1 = a2.
