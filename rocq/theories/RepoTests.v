(** The repository's own tests, run on the model.  These are tests of the model,
    not proofs: each [Example] evaluates what a test of /repo does and asserts.
    The C++ tests read files of a test-data repository which is not part of
    /repo; small pictures stand in for them, and windows of hundreds of pixels
    are scaled down by a hundred. *)
From Coq Require Import String Floats.SpecFloat.
From Verif Require Import Machine CacheModel FloatModel BBoxModel PixelModel RowModel AttrModel StreamModel GraphModel NodeModel
  NodeExamples FrameModel FxModel TextSpec GeomModel ClientModel.
Local Open Scope string_scope.

(** ** Rust unit tests *)

(** src/pixelblock/pixelblock.rs 314-405 *)
Definition bytes_of_new (p : profile) (w h nc : Z) (t : datatype) : Res Z :=
  let* pb := pb_new p (BS w h nc) t in db_size_bytes p (pb_data pb).
Example new_f32 : forall p, bytes_of_new p 3 5 4 Float32 = Ok (3 * 5 * 4 * 4).
Proof. intros []; vm_compute; reflexivity. Qed.
Example new_u16 : forall p, bytes_of_new p 2 4 3 UInt16 = Ok (2 * 4 * 3 * 2).
Proof. intros []; vm_compute; reflexivity. Qed.
Example new_u8 : forall p, bytes_of_new p 2 2 3 UInt8 = Ok (2 * 2 * 3).
Proof. intros []; vm_compute; reflexivity. Qed.
Example get_index :
  bi_index (bi_new (BS 3 5 4)) = 0 /\ bi_index (bi_from_index (BS 3 5 4) 3) = 3 /\ bi_index (bi_from_index (BS 3 5 4) 6) = 6 /\
  (let* i := bi_from_xy (BS 3 5 4) 2 0 in Ok (bi_index i)) = Ok (2 * 4) /\
  (let* i := bi_from_xy (BS 3 5 4) 2 1 in Ok (bi_index i)) = Ok (3 * 4 + 2 * 4).
Proof. vm_compute. repeat split. Qed.
Example get_row : forall p,
  (let* pb := pb_new p (BS 3 5 4) Float32 in let* r := picture_row p pb 1 in Ok (Z.of_nat (List.length r))) = Ok (3 * 4).
Proof. intros []; vm_compute; reflexivity. Qed.

(** src/pixelblock/datablock.rs 314-358 *)
Example datablock_new : (let* d := db_new 9 Float32 in Ok (db_len d)) = Ok 9.
Proof. reflexivity. Qed.
Example from_slices : forall p a b c,
  db_len (DF32 [a; b; c]) = 3 /\ db_size_bytes p (DF32 [a; b; c]) = Ok (3 * 4) /\
  db_len (DU16 [0; 127; 255; 25252; 65535]) = 5 /\ db_size_bytes p (DU16 [0; 127; 255; 25252; 65535]) = Ok (5 * 2) /\
  db_len (DU8 [0; 42; 127; 255]) = 4 /\ db_size_bytes p (DU8 [0; 42; 127; 255]) = Ok 4.
Proof. intros [] a b c; vm_compute; repeat split. Qed.

(** src/pixelblock/pixelblock/index.rs 71-93 *)
Example index_new : bi_index (bi_new (BS 1 1 4)) = 0 /\ bi_index (bi_from_index (BS 1 1 3) 3) = 3.
Proof. vm_compute. repeat split. Qed.

(** src/pixelblock/pixelblock/row.rs 102-130 *)
Example slice_row : forall p,
  (let* pb := pb_new p (BS 3 3 3) Float32 in let* r := picture_row p pb 1 in Ok (List.length r, hd f32_one r)) = Ok (9%nat, f32_zero).
Proof. intros []; vm_compute; reflexivity. Qed.
Example row_iterator : forall p,
  (let* pb := pb_new p (BS 3 3 3) Float32 in let* r := walk p pb 99 0 in Ok (List.length (fst r), snd r)) = Ok (3%nat, true).
Proof. intros []; vm_compute; reflexivity. Qed.

(** src/pixelblock/blocksize.rs 97-157 *)
Example blocksize_new : forall p, bs_size p (BS 3 3 3) = Ok (3 * 3 * 3) /\ bs_size p (BS 0 0 0) = Ok 0.
Proof. intros []; vm_compute; repeat split. Qed.
Example blocksize_get_index : forall p, bs_get_index p (BS 3 2 3) 0 0 = Ok 0 /\ bs_get_index p (BS 3 2 3) 1 0 = Ok 3 /\
  bs_get_index p (BS 3 2 3) 0 1 = Ok (3 * 3) /\ bs_get_index p (BS 3 2 3) 1 1 = Ok (3 * 3 + 3).
Proof. intros []; vm_compute; repeat split. Qed.
Example blocksize_get_xy : forall p, bs_get_xy p (BS 3 2 4) 0 = Ok (0, 0) /\ bs_get_xy p (BS 3 2 4) 4 = Ok (1, 0) /\
  bs_get_xy p (BS 3 2 4) (3 * 4) = Ok (0, 1) /\ bs_get_xy p (BS 3 2 4) (3 * 4 + 4) = Ok (1, 1).
Proof. intros []; vm_compute; repeat split. Qed.

(** src/bbox/bbox2di.rs 112-148 *)
Example bbox_new : width (BBox (-20) (-20) 20 20) = 40 /\ height (BBox (-20) (-20) 20 20) = 40.
Proof. split; reflexivity. Qed.
Example iter1 : let walked := fst (drain (row_next (BBox (-20) (-20) 20 20)) 99 (row_iter_new (BBox (-20) (-20) 20 20))) in
  nth_error walked 0 = Some (-20) /\ nth_error walked 1 = Some (-19) /\ last walked 0 = 19.
Proof. vm_compute. repeat split. Qed.
Example iter2 : fst (drain (row_next (BBox (-20) (-20) 20 20)) 99 (row_iter_new (BBox (-20) (-20) 20 20)))
  = map (fun i => Z.of_nat i - 20) (seq 0 40).
Proof. vm_compute. reflexivity. Qed.

(** ** C++ tests *)

(** The replies to the calls of a program, if it runs to its end. *)
Fixpoint replies (p : profile) (cl : client disk) (calls : list ccall) : option (list reply * client disk) :=
  match calls with
  | [] => Some ([], cl)
  | c :: rest =>
      match client_call p demo insertion_sort 99 cl c with
      | Some (Ok (cl', r)) => match replies p cl' rest with Some (h, cl'') => Some (r :: h, cl'') | None => None end
      | _ => None
      end
  end.
(** [graph.create_node(type, name)] and what it gives *)
Definition create (t : node_type) (name : string) : ccall := CCreate 0 t (ByName (bytes_of name)).
Definition the (t : node_type) (name : string) : handle := Handle t (generate_id_from_name (bytes_of name)).
Definition set_str (n : handle) (a v : string) : ccall := CSet 0 n (WStr a (bytes_of v)).
Definition set_i32 (n : handle) (a : string) (v : Z) : ccall := CSet 0 n (WI32 a v).
(** floats are given by their bit patterns *)
Definition set_f32 (n : handle) (a : string) (v : Z) : ccall := CSet 0 n (WF32 a v).
Definition connect0 (a b : handle) : ccall := CConnect 0 a b 0.

(** The test pictures: 8x8 with three channels, and 6x4 with an alpha on a
    window that is larger than the display (as grid-overscan.exr has). *)
Definition checker : shared :=
  Shared (PB (BS 8 8 3) (DF32 (concat (map (fun i => if Nat.even (i + i / 8) then [f32_one; f32_one; f32_one] else [f32_zero; f32_zero; f32_zero]) (seq 0 64)))))
    (BBox 0 0 8 8) (BBox 0 0 8 8) spec_new.
Definition overscan : shared :=
  Shared (PB (BS 6 4 4) (DF32 (repeat (f32_of_Z 1) 96))) (BBox 0 0 4 2) (BBox (-1) (-1) 5 3) spec_new.
Definition file_a := "tests/data/ocg-testdata/images/checker/checker_8bit_rgba_8x8.png".
Definition file_b := "tests/data/oiio-images/grid-overscan.exr".
Definition test_disk : disk := [(bytes_of file_a, checker); (bytes_of file_b, overscan)].
(** tests/main.cpp 64-67: a cache of four gigabytes *)
Definition test_cache : ccall := CSetCapacity 0 (4 * 1073741824).
Definition run_test (p : profile) (calls : list ccall) := replies p (client_new test_disk) (test_cache :: calls).
Definition only_graph (cl : client disk) : graph node stream := cl_graphs cl 0.
Definition pixel_size (cl : client disk) : Z * Z * Z :=
  let b := pb_size (st_block (g_output (only_graph cl))) in (bs_w b, bs_h b, bs_nc b).

Definition out (name : string) : string := "./tests/data/out/" ++ name.
Definition execute_on (t : node_type) (name : string) (frames : list Z) : ccall := CExecuteWhole 0 (the t name) frames 0.
Definition statuses (rs : list reply) : list exec_status :=
  flat_map (fun r => match r with RStatus s => [s] | _ => [] end) rs.
Definition bools (rs : list reply) : list bool := flat_map (fun r => match r with RBool b => [b] | _ => [] end) rs.
Definition written (cl : client disk) : list (list Z) := map fst (cl_disk cl).

(** tests/test_cache/test_cache_init.cpp 46-58 *)
Example test_cache_init : forall p, option_map fst (run_test p [CCapacity 0; CUsed 0; CCount 0])
  = Some [RVoid; RNumber (4 * 1073741824); RNumber 0; RNumber 0].
Proof. intros []; vm_compute; reflexivity. Qed.

(** tests/test_graph/test_graph_create_and_set_attrs.cpp 31-150: there are no
    attributes x and y, so the test does not set them. *)
Definition attrs_read : handle := Handle TRead 0.
Definition attrs_write : handle := Handle TWrite 1.
Example test_graph_create_and_set_attrs : forall p, option_map fst (run_test p
  [CCreate 0 TRead (ById 0); CAttrExists 0 attrs_read "file_path"; CGetStr 0 attrs_read "file_path";
   set_str attrs_read "file_path" file_a; CGetStr 0 attrs_read "file_path"; CAttrExists 0 attrs_read "x"; CAttrExists 0 attrs_read "y";
   CCreate 0 TWrite (ById 1); CAttrExists 0 attrs_write "file_path"; CGetStr 0 attrs_write "file_path";
   set_str attrs_write "file_path" (out "test_graph_create_and_set_attrs_out.png"); CGetStr 0 attrs_write "file_path"])
  = Some [RVoid; RNode attrs_read; RBool true; RBytes []; RVoid; RBytes (bytes_of file_a); RBool false; RBool false;
          RNode attrs_write; RBool true; RBytes []; RVoid; RBytes (bytes_of (out "test_graph_create_and_set_attrs_out.png"))].
Proof. intros []; vm_compute; reflexivity. Qed.

(** tests/test_graph/test_graph_no_ops.cpp 29-83 *)
Definition no_ops : list ccall :=
  [create TRead "read"; create TNull "null1"; create TNull "null2"; create TWrite "write";
   set_str (the TRead "read") "file_path" file_a; set_str (the TWrite "write") "file_path" (out "test_graph_no_ops_out.png");
   CExists 0 (the TRead "read"); CExists 0 (the TNull "null1"); CExists 0 (the TNull "null2"); CExists 0 (the TWrite "write");
   connect0 (the TRead "read") (the TNull "null1"); connect0 (the TNull "null1") (the TNull "null2");
   connect0 (the TNull "null2") (the TWrite "write"); execute_on TWrite "write" [1]].
Example test_graph_no_ops : forall p, option_map (fun r => (bools (fst r), statuses (fst r), hd_error (written (snd r)))) (run_test p no_ops)
  = Some ([true; true; true; true], [ExSuccess], Some (bytes_of (out "test_graph_no_ops_out.png"))).
Proof. intros []; vm_compute; reflexivity. Qed.

(** tests/test_graph/test_graph_re_connect_graph.cpp 43-100 *)
Definition re_connect : list ccall :=
  [create TRead "read"; create TGrade "grade"; create TWrite "write"; set_str (the TRead "read") "file_path" file_a;
   connect0 (the TRead "read") (the TGrade "grade"); connect0 (the TGrade "grade") (the TWrite "write");
   set_str (the TWrite "write") "file_path" (out "test_graph_re_connect_graph_out1.png"); execute_on TWrite "write" [1];
   set_str (the TWrite "write") "file_path" (out "test_graph_re_connect_graph_out2.png");
   connect0 (the TRead "read") (the TWrite "write"); execute_on TWrite "write" [1]].
Example test_graph_re_connect_graph : forall p, option_map (fun r => (statuses (fst r), firstn 2 (written (snd r)))) (run_test p re_connect)
  = Some ([ExSuccess; ExSuccess],
          [bytes_of (out "test_graph_re_connect_graph_out2.png"); bytes_of (out "test_graph_re_connect_graph_out1.png")]).
Proof. intros []; vm_compute; reflexivity. Qed.

(** tests/test_graph/test_graph_re_eval_modified_graph.cpp 41-142 (the factors in
    the order they are listed; the size of the output is asserted after each
    execution) *)
Definition factors : list Z := [1056964608; 1065353216; 1061997773; 1045220557; 0; 1073741824; 1069547520].
Definition re_eval_start : list ccall :=
  [create TRead "read"; create TGrade "grade"; create TWrite "write"; set_str (the TRead "read") "file_path" file_a;
   connect0 (the TRead "read") (the TGrade "grade"); connect0 (the TGrade "grade") (the TWrite "write")].
Definition re_eval_round (v : Z) : list ccall :=
  [set_f32 (the TGrade "grade") "multiply_r" v; set_f32 (the TGrade "grade") "multiply_g" v; set_f32 (the TGrade "grade") "multiply_b" v;
   set_str (the TWrite "write") "file_path" (out "test_graph_re_eval_modified_graph_out.png"); execute_on TWrite "write" [1]; COutput 0].
Definition sizes (rs : list reply) : list (Z * Z * Z) :=
  flat_map (fun r => match r with RStream s => let b := pb_size (st_block s) in [(bs_w b, bs_h b, bs_nc b)] | _ => [] end) rs.
Example test_graph_re_eval_modified_graph : forall p,
  option_map (fun r => (statuses (fst r), sizes (fst r))) (run_test p (re_eval_start ++ concat (map re_eval_round factors)))
  = Some (repeat ExSuccess 7, repeat (8, 8, 3) 7).
Proof. intros []; vm_compute; reflexivity. Qed.

(** tests/test_graph/test_graph_non_linear_graph.cpp 36-196 *)
Definition g_ (name : string) : handle := the TGrade name.
Definition non_linear : list ccall :=
  [create TRead "readimage1"; create TGrade "grade1"; create TGrade "grade2"; create TGrade "grade3"; create TGrade "grade4";
   create TNull "null1"; create TNull "null2"; create TWrite "writeimage1"; create TWrite "writeimage2"; create TWrite "writeimage3";
   set_str (the TRead "readimage1") "file_path" file_a;
   set_f32 (g_ "grade1") "multiply_r" 1073741824; set_f32 (g_ "grade2") "multiply_r" 1056964608;
   set_f32 (g_ "grade3") "multiply_r" 1048576000; set_f32 (g_ "grade4") "multiply_r" 1067030938;
   set_str (the TWrite "writeimage1") "file_path" (out "1.png"); set_str (the TWrite "writeimage2") "file_path" (out "2.png");
   set_str (the TWrite "writeimage3") "file_path" (out "3.png");
   connect0 (the TRead "readimage1") (g_ "grade1"); connect0 (g_ "grade1") (g_ "grade2"); connect0 (g_ "grade2") (the TNull "null1");
   connect0 (the TNull "null1") (the TWrite "writeimage1");
   connect0 (g_ "grade2") (g_ "grade3"); connect0 (g_ "grade3") (the TNull "null2"); connect0 (the TNull "null2") (the TWrite "writeimage2");
   connect0 (the TNull "null1") (g_ "grade4"); connect0 (g_ "grade4") (the TWrite "writeimage3");
   execute_on TWrite "writeimage1" [1]; execute_on TWrite "writeimage2" [1]; execute_on TWrite "writeimage3" [1]].
(** "The image should appear unchanged", "darker", "lighter": the first red value
    of the three files, one in the source (lines 79, 139, 188) *)
Definition first_red (cl : client disk) (name : string) : option f32 :=
  match disk_find (bytes_of (out name)) (cl_disk cl) with
  | Some i => match pb_data (sh_block i) with DF32 (v :: _) => Some v | _ => None end
  | None => None
  end.
Example test_graph_non_linear_graph : forall p,
  option_map (fun r => (statuses (fst r), map (first_red (snd r)) ["1.png"; "2.png"; "3.png"])) (run_test p non_linear)
  = Some ([ExSuccess; ExSuccess; ExSuccess], [Some f32_one; Some (f32_div f32_one (f32_of_Z 4)); Some (f32_of_bits 1067030938)]).
Proof. intros []; vm_compute; reflexivity. Qed.

(** tests/test_node_grade/test_node_grade.cpp 36-88 *)
Example test_node_grade : forall p,
  option_map (fun r => (statuses (fst r), pixel_size (snd r))) (run_test p
  [create TRead "read"; create TGrade "grade"; set_str (the TRead "read") "file_path" file_a;
   set_f32 (the TGrade "grade") "multiply_g" 1073741824; connect0 (the TRead "read") (the TGrade "grade"); execute_on TGrade "grade" [1]])
  = Some ([ExSuccess], (8, 8, 3)).
Proof. intros []; vm_compute; reflexivity. Qed.

(** tests/test_node_merge/test_node_merge.cpp 36-141 (the merges of two files, the
    concatenation and the empty reader) *)
Definition r_ (name : string) : handle := the TRead name.
Definition m_ (name : string) : handle := the TMerge name.
Definition merges : list ccall :=
  [create TRead "read_empty"; create TRead "read_bg1"; create TRead "read_fg1"; create TRead "read_fg2"; create TMerge "merge_add"; create TMerge "merge_over";
   create TMerge "merge_mult"; create TMerge "merge_over2"; create TMerge "merge_over3"; create TWrite "write_add"; create TWrite "write_over";
   create TWrite "write_mult"; create TWrite "write_concat"; create TWrite "write_empty";
   set_str (r_ "read_bg1") "file_path" file_a; set_str (r_ "read_fg1") "file_path" file_b; set_str (r_ "read_fg2") "file_path" file_b;
   set_i32 (m_ "merge_add") "mode" 0; set_str (the TWrite "write_add") "file_path" (out "add.####.exr");
   CConnect 0 (r_ "read_fg1") (m_ "merge_add") 0; CConnect 0 (r_ "read_bg1") (m_ "merge_add") 1; connect0 (m_ "merge_add") (the TWrite "write_add");
   set_i32 (m_ "merge_over") "mode" 1; set_str (the TWrite "write_over") "file_path" (out "over.####.exr");
   CConnect 0 (r_ "read_fg2") (m_ "merge_over") 0; CConnect 0 (r_ "read_bg1") (m_ "merge_over") 1; connect0 (m_ "merge_over") (the TWrite "write_over");
   set_i32 (m_ "merge_mult") "mode" 2; set_str (the TWrite "write_mult") "file_path" (out "mult.####.exr");
   CConnect 0 (r_ "read_fg2") (m_ "merge_mult") 0; CConnect 0 (r_ "read_bg1") (m_ "merge_mult") 1; connect0 (m_ "merge_mult") (the TWrite "write_mult");
   set_i32 (m_ "merge_over2") "mode" 1; set_str (the TWrite "write_concat") "file_path" (out "concat.####.exr");
   CConnect 0 (r_ "read_fg2") (m_ "merge_over2") 0; CConnect 0 (m_ "merge_add") (m_ "merge_over2") 1; connect0 (m_ "merge_over2") (the TWrite "write_concat");
   set_str (the TWrite "write_empty") "file_path" (out "empty.####.exr");
   CConnect 0 (r_ "read_empty") (m_ "merge_over3") 0; CConnect 0 (r_ "read_bg1") (m_ "merge_over3") 1; connect0 (m_ "merge_over3") (the TWrite "write_empty");
   execute_on TWrite "write_add" [1; 2]; execute_on TWrite "write_over" [1; 2]; execute_on TWrite "write_mult" [1; 2];
   execute_on TWrite "write_concat" [1; 2]; execute_on TWrite "write_empty" [1; 2]].
Example test_node_merge : forall p, option_map (fun r => (statuses (fst r), firstn 4 (written (snd r)))) (run_test p merges)
  = Some (repeat ExSuccess 5, map (fun f => bytes_of (out f)) ["empty.0002.exr"; "empty.0001.exr"; "concat.0002.exr"; "concat.0001.exr"]).
Proof. intros []; vm_compute; reflexivity. Qed.

(** tests/test_node_crop/test_node_crop.cpp 36-117 *)
Definition crop_settings (n : handle) (lo hi reformat : Z) : list ccall :=
  [set_i32 n "window_min_x" lo; set_i32 n "window_min_y" lo; set_i32 n "window_max_x" hi; set_i32 n "window_max_y" hi;
   set_i32 n "reformat" reformat; set_i32 n "black_outside" 0; set_i32 n "intersect" 0].
Definition crops : list ccall :=
  [create TRead "read1"; create TRead "read2"; create TCrop "crop1"; create TCrop "crop2"; create TWrite "write1"; create TWrite "write2"; create TWrite "write4";
   set_str (r_ "read1") "file_path" file_a; set_str (r_ "read2") "file_path" file_b] ++
  crop_settings (the TCrop "crop1") 8 12 0 ++ crop_settings (the TCrop "crop2") 0 2 1 ++
  [set_str (the TWrite "write1") "file_path" (out "out1.####.png"); set_str (the TWrite "write2") "file_path" (out "out2.####.png");
   set_str (the TWrite "write4") "file_path" (out "out4.####.png"); set_i32 (the TWrite "write4") "crop_on_write" 1;
   connect0 (r_ "read1") (the TCrop "crop1"); connect0 (r_ "read2") (the TCrop "crop2"); connect0 (the TCrop "crop1") (the TWrite "write1");
   connect0 (the TCrop "crop2") (the TWrite "write2"); connect0 (r_ "read2") (the TWrite "write4");
   execute_on TWrite "write1" [1]; execute_on TWrite "write2" [1]; execute_on TWrite "write4" [1; 2; 3]].
Example test_node_crop : forall p, option_map (fun r => (statuses (fst r), firstn 5 (written (snd r)))) (run_test p crops)
  = Some (repeat ExSuccess 3, map (fun f => bytes_of (out f)) ["out4.0003.png"; "out4.0002.png"; "out4.0001.png"; "out2.0001.png"; "out1.0001.png"]).
Proof. intros []; vm_compute; reflexivity. Qed.

(** tests/test_node_viewer/test_node_viewer.cpp 34-128, without the lens (the plug-in
    is not modelled) *)
Definition viewing : list ccall :=
  [create TRead "read"; create TGrade "grade1"; create TViewer "viewer1"; create TWrite "write1"; set_str (r_ "read") "file_path" file_a;
   set_i32 (g_ "grade1") "process_r" 1; set_i32 (g_ "grade1") "process_a" 0; set_f32 (g_ "grade1") "white_point_r" 1073741824;
   set_f32 (g_ "grade1") "offset_r" 1008981770; set_f32 (g_ "grade1") "multiply_g" 1067030938;
   set_i32 (the TViewer "viewer1") "bake_option" 1; set_str (the TViewer "viewer1") "bake_color_space" "Linear";
   set_i32 (the TViewer "viewer1") "bake_pixel_data_type" 1; set_i32 (the TViewer "viewer1") "crop_to_format" 0;
   set_i32 (the TViewer "viewer1") "disk_cache" 0; set_str (the TWrite "write1") "file_path" (out "viewer.####.jpg");
   connect0 (r_ "read") (g_ "grade1"); connect0 (g_ "grade1") (the TViewer "viewer1"); connect0 (the TViewer "viewer1") (the TWrite "write1");
   execute_on TViewer "viewer1" [1001]; execute_on TWrite "write1" [1001]].
Example test_node_viewer : forall p, option_map (fun r => (statuses (fst r), hd_error (written (snd r)))) (run_test p viewing)
  = Some ([ExSuccess; ExSuccess], Some (bytes_of (out "viewer.1001.jpg"))).
Proof. intros []; vm_compute; reflexivity. Qed.

(** tests/test_node_transform/test_node_transform.cpp 35-151, the meshes aside *)
Definition t_ (name : string) : handle := the TTransform name.
Definition transforms : list ccall :=
  [create TRead "my_read_node"; create TTransform "transform1"; create TTransform "transform2"; create TTransform "transform3";
   create TWrite "write_node1"; create TWrite "write_node2"; create TWrite "write_node3";
   set_str (r_ "my_read_node") "file_path" file_a;
   set_f32 (t_ "transform1") "translate_x" 1056964608; set_f32 (t_ "transform1") "translate_y" 1056964608;
   set_str (the TWrite "write_node1") "file_path" (out "1.jpg");
   set_f32 (t_ "transform2") "rotate" 1110704128; set_str (the TWrite "write_node2") "file_path" (out "2.jpg");
   set_f32 (t_ "transform3") "scale_x" 1073741824; set_f32 (t_ "transform3") "scale_y" 1073741824;
   set_str (the TWrite "write_node3") "file_path" (out "3.jpg");
   connect0 (r_ "my_read_node") (t_ "transform1"); connect0 (r_ "my_read_node") (t_ "transform2"); connect0 (r_ "my_read_node") (t_ "transform3");
   connect0 (t_ "transform1") (the TWrite "write_node1"); connect0 (t_ "transform2") (the TWrite "write_node2");
   connect0 (t_ "transform3") (the TWrite "write_node3");
   execute_on TTransform "transform1" [1]; execute_on TWrite "write_node1" [1]; execute_on TWrite "write_node2" [1]; execute_on TWrite "write_node3" [1]].
Example test_node_transform : forall p, option_map (fun r => (statuses (fst r), firstn 3 (written (snd r)))) (run_test p transforms)
  = Some (repeat ExSuccess 4, map (fun f => bytes_of (out f)) ["3.jpg"; "2.jpg"; "1.jpg"]).
Proof. intros []; vm_compute; reflexivity. Qed.

(** tests/test_node_resample/test_node_resample.cpp 37-108 *)
Definition resample_round (interpolate factor : Z) (f : string) : list ccall :=
  [set_i32 (the TResample "resample") "interpolate" interpolate; set_i32 (the TResample "resample") "factor" factor;
   set_str (the TWrite "write") "file_path" (out f); execute_on TWrite "write" [1]].
Definition resamples : list ccall :=
  [create TRead "read"; create TResample "resample"; create TWrite "write"; connect0 (r_ "read") (the TResample "resample");
   connect0 (the TResample "resample") (the TWrite "write"); set_str (r_ "read") "file_path" file_b] ++
  resample_round 0 0 "1.png" ++ resample_round 0 (-1) "2.png" ++ resample_round 1 (-2) "3.png" ++ resample_round 1 1 "4.png" ++
  resample_round 0 2 "5.png" ++ resample_round 1 (-12) "6.png" ++ resample_round 0 14 "7.png".
Example test_node_resample : forall p, option_map (fun r => (statuses (fst r), firstn 7 (written (snd r)))) (run_test p resamples)
  = Some (repeat ExSuccess 7, map (fun f => bytes_of (out f)) ["7.png"; "6.png"; "5.png"; "4.png"; "3.png"; "2.png"; "1.png"]).
Proof. intros []; vm_compute; reflexivity. Qed.

(** tests/test_node_grade/test_node_grade_concat.cpp 44-180 *)
Definition grade_settings (n : handle) (reverse lift gain offset multiply gamma_r gamma_b : Z) : list ccall :=
  [set_i32 n "reverse" reverse; set_i32 n "process_r" 1; set_i32 n "process_g" 1; set_i32 n "process_b" 1; set_i32 n "process_a" 0] ++
  map (fun a => set_f32 n a 1073741824) ["white_point_r"; "white_point_g"; "white_point_b"; "white_point_a"] ++
  map (fun a => set_f32 n a 1028443341) ["black_point_r"; "black_point_g"; "black_point_b"; "black_point_a"] ++
  [set_f32 n "lift_r" lift; set_f32 n "gain_r" gain] ++
  map (fun a => set_f32 n a offset) ["offset_r"; "offset_g"; "offset_b"; "offset_a"] ++
  [set_f32 n "multiply_g" multiply; set_f32 n "gamma_r" gamma_r; set_f32 n "gamma_b" gamma_b].
Definition grades : list ccall :=
  [create TRead "read"; create TGrade "grade_forward"; create TGrade "grade_backward"; create TWrite "write1"; create TWrite "write2";
   set_str (r_ "read") "file_path" file_b; set_str (the TWrite "write1") "file_path" (out "1.exr"); set_str (the TWrite "write2") "file_path" (out "2.exr")] ++
  grade_settings (g_ "grade_forward") 0 1008981770 1061997773 1008981770 1067030938 1067030938 1061997773 ++
  grade_settings (g_ "grade_backward") 1 1036831949 1061997773 1036831949 1073741824 1073741824 1073741824 ++
  [connect0 (r_ "read") (g_ "grade_forward"); connect0 (g_ "grade_forward") (g_ "grade_backward");
   connect0 (g_ "grade_forward") (the TWrite "write1"); connect0 (g_ "grade_backward") (the TWrite "write2");
   execute_on TGrade "grade_forward" [1]; execute_on TWrite "write1" [1]; execute_on TWrite "write2" [1]].
Example test_node_grade_concat : forall p, option_map (fun r => (statuses (fst r), firstn 2 (written (snd r)))) (run_test p grades)
  = Some (repeat ExSuccess 3, map (fun f => bytes_of (out f)) ["2.exr"; "1.exr"]).
Proof. intros []; vm_compute; reflexivity. Qed.

(** tests/test_cache/test_cache_read_image_seq.cpp 39-165 with three frames: a new
    cache for each execution; frames without a file; frames over and over.  The
    counts the test prints are given. *)
Definition sequence_disk : disk :=
  map (fun f => (bytes_of ("color_bars." ++ f ++ ".png"), overscan)) ["0951"; "0952"; "0953"].
Definition sequence : list ccall :=
  [create TRead "read"; create TWrite "write"; set_str (r_ "read") "file_path" "color_bars.####.png"; set_i32 (r_ "read") "use_cache" 1;
   set_str (the TWrite "write") "file_path" (out "seq.####.png"); connect0 (r_ "read") (the TWrite "write")].
Definition playing (k : nat) (frames : list Z) : list ccall :=
  [CSetCapacity k (4 * 1073741824); CExecuteWhole 0 (r_ "read") frames k; CCount k].
Example test_cache_read_image_seq : forall p,
  option_map (fun r => skipn 6 (fst r)) (replies p (client_new sequence_disk)
    (sequence ++ playing 0 [951; 952; 953] ++ playing 1 [949; 950; 951; 952] ++ playing 2 [951; 952; 953; 951; 952; 953] ++ playing 3 [953; 951; 953; 952]))
  = Some [RVoid; RStatus ExSuccess; RNumber 3; RVoid; RStatus ExSuccess; RNumber 2; RVoid; RStatus ExSuccess; RNumber 3; RVoid; RStatus ExSuccess; RNumber 3].
Proof. intros []; vm_compute; reflexivity. Qed.

(** tests/test_stream/test_stream_empty_write_geom.cpp 38-137: the numbers of
    triangles its comments give for equal divisions (three indices each) *)
Definition mesh (d : Z) : plane := Plane (f32_neg (f32_div f32_one (f32_of_Z 2))) (f32_neg (f32_div f32_one (f32_of_Z 2))) f32_one f32_one d d.
Example test_stream_empty_write_geom : forall p, map (fun d => buffer_size_tris p (mesh d)) [2; 3; 4] = map (fun n => Ok (3 * n)) [2; 8; 18].
Proof. intros []; vm_compute; reflexivity. Qed.
