(** C80: where the configuration comes from; C42: how much memory the cache
    really gets. *)
From Coq Require String.
Import String.StringSyntax.
From Coq Require Import Floats.SpecFloat.
From Verif Require Import Machine Loops FloatModel ConfigModel ConfigProofs ConfigReal LutModel
  BakeModel BakeProofs LookupModel LookupSpec LookupProofs.
Local Open Scope string_scope.

(* ------------------------------ C80 ------------------------------ *)

(** Every value of the variable is a list of directories, and only one. *)
Theorem C80_search_path : forall v, exists dirs, search_path dirs /\ v = joined dirs /\
  forall es, search_path es -> v = joined es -> es = dirs.
Proof. exact search_path_unique. Qed.
Print Assumptions C80_search_path.

(** The file is taken from the first listed directory that has it; if it cannot
    be read or parsed the process is aborted, later directories are not tried. *)
Theorem C80_first_directory : forall A name before d after path,
  ~ absolute name -> name <> [] ->
  search_path (before ++ d :: after) -> ar_var A = Some (joined (before ++ d :: after)) ->
  (forall x p, In x before -> inside x name p -> ar_is_file A p = false \/ ar_utf8 A p = false) ->
  inside d name path -> ar_is_file A path = true -> ar_utf8 A path = true ->
  get_config A name =
    match ar_contents A path with
    | Some text => match ar_parse A text with Some c => Ok c | None => Panic end
    | None => Panic
    end.
Proof. exact (fun A name b d a path R N => first_found A name R N b d a path). Qed.
Print Assumptions C80_first_directory.

(** With no such file, or no variable, the built-in defaults are used. *)
Theorem C80_default : forall A name,
  ar_var A = None \/
  (~ absolute name /\ exists dirs, search_path dirs /\ ar_var A = Some (joined dirs) /\
    forall x p, In x dirs -> inside x name p -> ar_is_file A p = false \/ ar_utf8 A p = false) ->
  get_config A name = Ok (Config (S754_zero false) 0).
Proof. exact defaults. Qed.
Print Assumptions C80_default.

(** An absolute name is used wherever the variable points... *)
Theorem C80_absolute_name : forall A name v,
  absolute name -> ar_var A = Some v -> ar_is_file A name = true -> ar_utf8 A name = true ->
  get_config A name =
    match ar_contents A name with
    | Some text => match ar_parse A text with Some c => Ok c | None => Panic end
    | None => Panic
    end.
Proof. exact absolute_name. Qed.
Print Assumptions C80_absolute_name.

(** Two directories, the second of which has the file. *)
Definition yaml := ascii_bytes "open_comp_graph.yaml".
Definition twenty : config := Config (f32_of_Z 20) 0.
Definition place_at (var : option (list Z)) (path : list Z) : surroundings :=
  Around var (bytes_eqb path) (fun _ => true)
    (fun q => if bytes_eqb path q then Some (ascii_bytes "cache") else None)
    (fun t => if bytes_eqb t (ascii_bytes "cache") then Some twenty else None).

(** ... but it is ignored, without a word, when the variable is not set: the
    file is there, it can be read and parsed, and the defaults are used. *)
Theorem C80_absolute_name_refuted : exists A name,
  absolute name /\ ar_is_file A name = true /\ ar_utf8 A name = true /\
  (exists text c, ar_contents A name = Some text /\ ar_parse A text = Some c /\ cf_percent c = f32_of_Z 20) /\
  get_config A name = Ok config_default.
Proof.
  exists (place_at None (ascii_bytes "/etc/ocg.yaml")), (ascii_bytes "/etc/ocg.yaml").
  split; [exists (ascii_bytes "etc/ocg.yaml"); reflexivity|].
  split; [reflexivity|]. split; [reflexivity|]. split; [|reflexivity].
  exists (ascii_bytes "cache"), twenty. split; [reflexivity|]. split; reflexivity.
Qed.
Print Assumptions C80_absolute_name_refuted.

(** An empty entry (a trailing ':') makes the current directory be searched. *)
Theorem C80_empty_entry : exists A,
  ar_var A = Some (ascii_bytes "/studio:") /\ get_config A yaml = Ok twenty /\
  (forall p, ar_is_file A p = true -> p = yaml).
Proof.
  exists (place_at (Some (ascii_bytes "/studio:")) yaml).
  split; [reflexivity|]. split; [vm_compute; reflexivity|].
  intros p H. symmetry. apply bytes_eqb_true. exact H.
Qed.
Print Assumptions C80_empty_entry.

(** A file that is not valid aborts although a later directory has a good one. *)
Theorem C80_bad_file_aborts_refuted : exists A,
  ar_var A = Some (ascii_bytes "/a:/b") /\
  ar_is_file A (ascii_bytes "/b/open_comp_graph.yaml") = true /\
  (exists text c, ar_contents A (ascii_bytes "/b/open_comp_graph.yaml") = Some text /\ ar_parse A text = Some c) /\
  get_config A yaml = Panic.
Proof.
  exists (Around (Some (ascii_bytes "/a:/b")) (fun _ => true) (fun _ => true)
    (fun q => if bytes_eqb q (ascii_bytes "/b/open_comp_graph.yaml") then Some (ascii_bytes "cache") else Some [])
    (fun t => if bytes_eqb t (ascii_bytes "cache") then Some twenty else None)).
  split; [reflexivity|]. split; [reflexivity|]. split; [|vm_compute; reflexivity].
  exists (ascii_bytes "cache"), twenty. split; reflexivity.
Qed.
Print Assumptions C80_bad_file_aborts_refuted.

Example C80_example :
  let A := place_at (Some (ascii_bytes "/home/me:/studio")) (ascii_bytes "/studio/open_comp_graph.yaml") in
  ~ absolute yaml /\ yaml <> [] /\
  search_path ([ascii_bytes "/home/me"] ++ ascii_bytes "/studio" :: []) /\
  ar_var A = Some (joined ([ascii_bytes "/home/me"] ++ ascii_bytes "/studio" :: [])) /\
  ar_is_file A (ascii_bytes "/home/me/open_comp_graph.yaml") = false /\
  get_config A yaml = Ok twenty /\
  get_config A (ascii_bytes "other.yaml") = Ok config_default.
Proof.
  cbv zeta. split; [intros (r & H); discriminate H|]. split; [discriminate|].
  split.
  { split; [discriminate|]. cbn [app]. intros d [<-|[<-|[]]] H; vm_compute in H;
      repeat (destruct H as [H|H]; [discriminate H|]); exact H. }
  split; [reflexivity|]. split; [vm_compute; reflexivity|]. split; vm_compute; reflexivity.
Qed.

(* ------------------------------ C42 ------------------------------ *)

(** Whatever the percentage: all of the memory, up to one part in 2^24. *)
Theorem C42_whole_memory : forall ram p, 0 <= ram < two64 ->
  Z.abs (ram_capacity_bytes ram p - ram) * 2 ^ 24 <= ram.
Proof. exact capacity_close. Qed.
Print Assumptions C42_whole_memory.

(** It can be more than there is. *)
Theorem C42_more_than_all_refuted : exists ram p,
  0 <= ram < two64 /\ f32_le p (f32_of_Z 100) = true /\ ram < ram_capacity_bytes ram p.
Proof.
  exists (2 ^ 34 - 4096 / 16), (f32_of_Z 20).
  split; [split; [discriminate|reflexivity]|]. split; vm_compute; reflexivity.
Qed.
Print Assumptions C42_more_than_all_refuted.
