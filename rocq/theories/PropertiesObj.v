(** C71: exported meshes. *)
From Coq Require Import Lia Floats.SpecFloat.
From Verif Require Import Machine Loops FloatModel PathModel GeomModel GeomSpec GeomProofs ObjModel ObjSpec ObjProofs.

(** Exporting never aborts on buffers whose indexes are below u32::MAX when the
    file can be written, and what is written there is read back as the mesh:
    all the vertices, texture coordinates and triangles that are complete. *)
Theorem C71_round_trip : forall D write p show parse (d : D) positions uvs indices path,
  (forall text, exists d', write d path text = Some d') ->
  (forall f, In f positions \/ In f uvs -> prints show parse f) ->
  (forall i, In i indices -> 0 <= i < two32 - 1) ->
  exists text d', write d path text = Some d' /\ export_mesh p show write d positions uvs indices path = Ok d' /\
    read_obj parse text = Some (Mesh (groups 3 positions) (groups 2 uvs) (groups 3 indices)).
Proof. exact exported. Qed.
Print Assumptions C71_round_trip.

(** Buffers of whole vertices, coordinates and triangles come back unchanged. *)
Theorem C71_whole_buffers : forall D write p show parse (d : D) positions uvs indices path,
  (forall text, exists d', write d path text = Some d') ->
  (forall f, In f positions \/ In f uvs -> prints show parse f) ->
  (forall i, In i indices -> 0 <= i < two32 - 1) ->
  (exists n, length positions = 3 * n)%nat -> (exists n, length uvs = 2 * n)%nat -> (exists n, length indices = 3 * n)%nat ->
  exists text d', write d path text = Some d' /\ export_mesh p show write d positions uvs indices path = Ok d' /\
    read_obj parse text = Some (Mesh positions uvs indices).
Proof. exact exported_whole. Qed.
Print Assumptions C71_whole_buffers.

(** The triangles of an image plane are within the bound. *)
Theorem C71_plane_triangles : forall p g b out,
  index_space (divisions_x g) (divisions_y g) -> buffer_size_tris p g = Ok (zlen b) -> fill_tris p g b = Ok out ->
  (forall i, In i out -> 0 <= i < two32 - 1) /\ (exists n, length out = 3 * n)%nat.
Proof. exact plane_exportable. Qed.
Print Assumptions C71_plane_triangles.

(** An instance of the printing hypothesis, and a mesh: a quad, with one
    superfluous number in each buffer. *)
Definition f32_half : f32 := S754_finite false 8388608 (-24).
Definition show_few (f : f32) : list Z :=
  if f32_eq f f32_zero then [48] else if f32_eq f f32_one then [49] else [46; 53].
Definition parse_few (s : list Z) : option f32 :=
  match s with [48] => Some f32_zero | [49] => Some f32_one | [46; 53] => Some f32_half | _ => None end.
Definition quad_positions : list f32 :=
  let o := f32_zero in let l := f32_one in let h := f32_half in [o; o; h; l; o; h; l; l; h; o; l; h; l].
Definition quad_uvs : list f32 := let o := f32_zero in let l := f32_one in [o; o; l; o; l; l; o; l; l].
Definition quad_tris : list Z := [0; 3; 2; 0; 2; 1; 7].
Definition store (d : list (list Z * list Z)) (path text : list Z) := Some ((path, text) :: d).

Example C71_example :
  (forall f, In f quad_positions \/ In f quad_uvs -> prints show_few parse_few f)
  /\ (forall i, In i quad_tris -> 0 <= i < two32 - 1)
  /\ exists text, export_mesh Release show_few store [] quad_positions quad_uvs quad_tris [97] = Ok [([97], text)]
     /\ read_obj parse_few text = Some (Mesh (firstn 12 quad_positions) (firstn 8 quad_uvs) [0; 3; 2; 0; 2; 1]).
Proof.
  split; [|split].
  - intros f H. assert (K : f = f32_zero \/ f = f32_one \/ f = f32_half) by (unfold quad_positions, quad_uvs in H; cbn [In] in H; intuition congruence).
    destruct K as [ -> | [ -> | -> ] ]; (split; [vm_compute; reflexivity|]); vm_compute; intuition discriminate.
  - intros i H. unfold quad_tris in H. cbn [In] in H. unfold two32. lia.
  - eexists. split; [vm_compute; reflexivity|vm_compute; reflexivity].
Qed.

(** The last u32 wraps to a corner numbered zero, which no reader accepts; with
    overflow checks it aborts. *)
Theorem C71_last_index_refuted :
  export_mesh Debug show_few store [] [] [] [0; 1; two32 - 1] [97] = Panic
  /\ exists text, export_mesh Release show_few store [] [] [] [0; 1; two32 - 1] [97] = Ok [([97], text)]
     /\ read_obj parse_few text = None.
Proof. split; [vm_compute; reflexivity|]. eexists. split; [vm_compute; reflexivity|vm_compute; reflexivity]. Qed.
Print Assumptions C71_last_index_refuted.

(** A path that cannot be written aborts the process. *)
Theorem C71_unwritable_refuted : forall p,
  export_mesh p show_few (fun (_ : unit) _ _ => None) tt quad_positions quad_uvs quad_tris [97] = Panic.
Proof. intros []; vm_compute; reflexivity. Qed.
Print Assumptions C71_unwritable_refuted.

(** Corners name texture coordinates by the number of their vertex; fewer
    coordinates than vertices leave triangles naming coordinates which the
    file does not have. *)
Theorem C71_missing_uvs_refuted :
  exists text m, export_mesh Release show_few store [] quad_positions [] quad_tris [97] = Ok [([97], text)]
    /\ read_obj parse_few text = Some m /\ m_uvs m = [] /\ In 3 (m_tris m).
Proof. do 2 eexists. split; [vm_compute; reflexivity|]. split; [vm_compute; reflexivity|]. split; [reflexivity|vm_compute; tauto]. Qed.
Print Assumptions C71_missing_uvs_refuted.
