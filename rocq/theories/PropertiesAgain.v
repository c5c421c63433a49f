(** C102: what has been computed is kept and not computed again. *)
From Coq Require String.
Import String.StringSyntax.
From Coq Require Import Floats.SpecFloat.
From Verif Require Import Machine CacheModel AttrModel PathModel HashModel HashSpec HashProofs StreamModel GraphModel GraphSpec NodeModel NodeExamples
  NodeSpec PropertiesNode PropertiesSound AgainSpec AgainProofs AgainProofs2 AgainProofs3.
Local Open Scope string_scope.

(** After a node that is to keep its picture was computed, the cache has what the node shows. *)
Theorem C102_kept : forall (D : Type) p (x : externals D) t b fr h mode ins out w st s w1,
  capacity (w_cache w) <> 0 -> keeps_picture x t b fr mode ins (w_disk w) ->
  compute_op p x t b fr h mode ins out w = Ok (st, s, w1) ->
  exists img, holds w1 h img /\ shows s img.
Proof. intros D. exact keeps_kept. Qed.
Print Assumptions C102_kept.

(** With its picture in the cache the node shows that, whatever pixels its inputs or its file now hold, and never crashes. *)
Theorem C102_not_made_again : forall (D : Type) p (x : externals D) t b fr h mode ins out w img,
  keeps_picture x t b fr mode ins (w_disk w) -> holds w h img ->
  exists st s, compute_op p x t b fr h mode ins out w = Ok (st, s, World (fst (get (w_cache w) h)) (w_disk w)) /\ shows s img.
Proof. intros D. exact not_made_again. Qed.
Print Assumptions C102_not_made_again.

(** A file is read once: changed contents are not looked at. *)
Theorem C102_read_once : forall (D : Type) p (x : externals D) b fr h mode ins out w st s w1,
  capacity (w_cache w) <> 0 -> keeps_picture x TRead b fr mode ins (w_disk w) ->
  compute_op p x TRead b fr h mode ins out w = Ok (st, s, w1) ->
  forall d out', keeps_picture x TRead b fr mode ins d ->
  exists w2, compute_op p x TRead b fr h mode ins out' (World (w_cache w1) d) = Ok (st, s, w2) /\ w_disk w2 = d.
Proof. intros D. exact read_once. Qed.
Print Assumptions C102_read_once.

(** Nodes told not to use the cache, and nodes that only add an operation, leave it exactly as it is. *)
Theorem C102_leaves_cache : forall (D : Type) p (x : externals D) t b fr h mode ins out w st s w1,
  b_i32 b "use_cache" = 0 \/ ~ In t [TRead; TCrop; TMerge; TResample; TViewer] ->
  compute_op p x t b fr h mode ins out w = Ok (st, s, w1) -> w_cache w1 = w_cache w.
Proof. intros D. exact leaves_cache. Qed.
Print Assumptions C102_leaves_cache.

(** The key depends on nothing but the type, the inputs' keys, the file named and these attributes; not on the node's id, on
    [use_cache], or on the frame where it names no file. *)
Theorem C102_same_key : forall p expand t b b' fr fr' ins,
  agree_on (key_attributes t b) b b' -> same_path expand t b b' fr fr' ->
  cache_hash_bytes p expand t b fr ins = cache_hash_bytes p expand t b' fr' ins.
Proof. exact same_key. Qed.
Print Assumptions C102_same_key.

(** A node that is switched off has the same key whatever its other attributes and the frame are. *)
Theorem C102_off_key : forall p expand t b b' fr fr' ins,
  t <> TNull -> b_i32 b "enable" = 0 -> b_i32 b' "enable" = 0 ->
  cache_hash_bytes p expand t b fr ins = cache_hash_bytes p expand t b' fr' ins.
Proof. exact off_key. Qed.
Print Assumptions C102_off_key.

(** The exception: a grade's clamping and premultiplication settings change no picture (C74) but do change the key. *)
Theorem C102_clamp_refuted :
  agree_on (influences TGrade grade_new) grade_new (put_i32 grade_new "clamp_white" 1) /\
  cache_hash_bytes Release (fun v => v) TGrade grade_new (S754_zero false) [] <>
  cache_hash_bytes Release (fun v => v) TGrade (put_i32 grade_new "clamp_white" 1) (S754_zero false) [].
Proof.
  split; [|vm_compute; discriminate]. intros a I. vm_compute in I.
  repeat (destruct I as [<-|I]; [vm_compute; reflexivity|]). destruct I.
Qed.
Print Assumptions C102_clamp_refuted.

(** An execution that succeeded and evicted nothing, done again on the unchanged graph, finds everything in the cache: no lookup
    misses and nothing is inserted or evicted, whatever the files now contain, as long as those it reads exist.  (The graph's
    output had the same key before the first execution as after it; the next theorem removes that.) *)
Theorem C102_executed_again : forall (D : Type) p (x : externals D) srt, writes_keep_kinds x ->
  forall fuel g id frames w g1 w1 d g2 w2 st,
  execute (node_ops p x) srt fuel g id frames w = Some (Ok (g1, w1, ExSuccess)) ->
  capacity (w_cache w) <> 0 -> evictions (w_cache w1) = evictions (w_cache w) ->
  st_hash (g_output g1) = st_hash (g_output g) ->
  files_exist x g frames (w_disk w) -> still_there x (w_disk w) d ->
  execute (node_ops p x) srt fuel g1 id frames (World (w_cache w1) d) = Some (Ok (g2, w2, st)) ->
  only_hits (w_cache w1) (w_cache w2) /\ (st = ExSuccess -> st_hash (g_output g2) = st_hash (g_output g1)).
Proof. intros D. exact again. Qed.
Print Assumptions C102_executed_again.

(** The same when the execution does not depend on what the graph showed before. *)
Theorem C102_executed_again_anew : forall (D : Type) p (x : externals D) srt, writes_keep_kinds x ->
  forall fuel g id frames w g1 w1 d g2 w2 st,
  (forall o, execute (node_ops p x) srt fuel (with_output g o) id frames w = Some (Ok (g1, w1, ExSuccess))) ->
  capacity (w_cache w) <> 0 -> evictions (w_cache w1) = evictions (w_cache w) ->
  files_exist x g frames (w_disk w) -> still_there x (w_disk w) d ->
  execute (node_ops p x) srt fuel g1 id frames (World (w_cache w1) d) = Some (Ok (g2, w2, st)) ->
  only_hits (w_cache w1) (w_cache w2) /\ (st = ExSuccess -> st_hash (g_output g2) = st_hash (g_output g1)).
Proof. intros D. exact again_anew. Qed.
Print Assumptions C102_executed_again_anew.

(* ------------------------------ a case ------------------------------ *)

(** The reader feeding the crop of C54's session, executed three times; the file is overwritten after the second. *)
Definition run (g : graph node stream) (w : world disk) :=
  match execute (node_ops Debug demo) insertion_sort 9 g 2 [frame0] w with
  | Some (Ok (g, w, ExSuccess)) => Some (g, w)
  | _ => None
  end.
Definition counts (w : world disk) := let c := w_cache w in (hits c, CacheModel.misses c, inserts c, evictions c).
Example C102_three_runs :
  match run pair0 (demo_world a_disk 4096) with
  | Some (g1, w1) =>
      counts w1 = (0, 2, 2, 0) /\ capacity (w_cache w1) <> 0 /\
      match run g1 w1 with
      | Some (g2, w2) =>
          counts w2 = (2, 2, 2, 0) /\ st_hash (g_output g2) = st_hash (g_output g1) /\
          match run g2 (World (w_cache w2) [([97], empty_image)]) with
          | Some (g3, w3) => counts w3 = (4, 2, 2, 0) /\ g_output g3 = g_output g2
          | None => False
          end
      | None => False
      end
  | None => False
  end.
Proof. vm_compute. repeat split. discriminate. Qed.

Example C102_files_exist : files_exist demo pair0 [frame0] a_disk.
Proof.
  intros n fr path I T E J P. destruct I as [<-|[<-|[]]]; [|discriminate T]. destruct J as [<-|[]].
  vm_compute in P. injection P as <-. vm_compute. discriminate.
Qed.

Example C102_writes_keep_kinds : writes_keep_kinds demo.
Proof.
  intros d path img co q. unfold demo. cbn [x_kind x_write fst disk_find]. destruct (BakeModel.bytes_eqb path q); [|reflexivity].
  destruct (disk_find q d); [reflexivity|]. intro H. now elim H.
Qed.

Example C102_keeps : keeps_picture demo TRead (nd_attrs a_reader) frame0 mode_all [] a_disk.
Proof.
  split; [vm_compute; discriminate|]. split; [vm_compute; discriminate|]. split; [reflexivity|].
  eexists. split; vm_compute; reflexivity.
Qed.

(** The first of these runs does not depend on the output the graph had. *)
Example C102_anew_met : exists g1 w1, forall o,
  execute (node_ops Debug demo) insertion_sort 9 (with_output pair0 o) 2 [frame0] (demo_world a_disk 4096)
  = Some (Ok (g1, w1, ExSuccess)).
Proof. eexists _, _. intro o. vm_compute. reflexivity. Qed.
