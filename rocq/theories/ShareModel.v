(** Model of how pictures are shared: the reference counted pixels of streams
    (src/stream.rs 43-54, 196-212, 245-262, the derived Clone of 43), of cached
    images (src/cache.rs 30-36) and of the nodes that make them
    (Rc::new of the pixels, e.g. src/node/read_image.rs 156-190).
    Memory is a list of cells with a count, a holder is a stream or cached image
    and points to a cell.  Using a cell that has been freed is an error value;
    there are no weak references in the crate. *)
From Verif Require Import Machine.

Section Share.
Context {V : Type}.

(** A cell: freed, or a count and the pixels. *)
Record heap := Heap { cells : list (option (nat * V)); holders : list (option nat) }.
Definition heap_new : heap := Heap [] [].

Fixpoint put {A} (i : nat) (a : A) (l : list A) : list A :=
  match i, l with
  | O, _ :: t => a :: t
  | S i', b :: t => b :: put i' a t
  | _, [] => []
  end.
Definition at_ {A} (i : nat) (l : list (option A)) : option A :=
  match nth_error l i with Some o => o | None => None end.

(** Rc::clone and the drop of an Rc (alloc::rc): the last one frees. *)
Definition retain (a : nat) (c : list (option (nat * V))) : Res (list (option (nat * V))) :=
  match at_ a c with
  | Some (n, v) => Ok (put a (Some (S n, v)) c)
  | None => Panic
  end.
Definition release (a : nat) (c : list (option (nat * V))) : Res (list (option (nat * V))) :=
  match at_ a c with
  | Some (S (S n), v) => Ok (put a (Some (S n, v)) c)
  | Some (_, v) => Ok (put a None c)
  | None => Panic
  end.

(** What a holder is asked to do. *)
Inductive action :=
| Make (v : V)                  (* Rc::new, then into a new holder *)
| Copy (h : nat)                (* stream.clone(), pixel_block() *)
| Take (h k : nat)              (* h.set_pixel_block(k): k is moved into the call *)
| Write (h : nat) (f : V -> V)  (* h.pixel_block_as_mut(), then a change *)
| Drop (h : nat).

(** stream.rs 204-206: [Rc::make_mut]: in place for the only holder, else in a
    copy, and this holder lets go of the shared cell. *)
Definition write_in (h a : nat) (f : V -> V) (m : heap) : Res heap :=
  match at_ a (cells m) with
  | Some (1%nat, v) => Ok (Heap (put a (Some (1%nat, f v)) (cells m)) (holders m))
  | Some (_, v) =>
      let* c := release a (cells m) in
      Ok (Heap (c ++ [Some (1%nat, f v)]) (put h (Some (length c)) (holders m)))
  | None => Panic
  end.

(** stream.rs 208-214 [set_pixel_block]: the old pixels are kept by [_old_data]
    until the end, the new ones cloned, assigned (which drops the old) and the
    argument dropped. *)
Definition take_from (h k a b : nat) (m : heap) : Res heap :=
  let* c1 := retain a (cells m) in
  let* c2 := retain b c1 in
  let* c3 := release a c2 in
  let* c4 := release a c3 in
  let* c5 := release b c4 in
  Ok (Heap c5 (put k None (put h (Some b) (holders m)))).

(** An action on a holder that is not there does not compile; it is left out. *)
Definition act (x : action) (m : heap) : Res heap :=
  match x with
  | Make v => Ok (Heap (cells m ++ [Some (1%nat, v)]) (holders m ++ [Some (length (cells m))]))
  | Copy h =>
      match at_ h (holders m) with
      | Some a => let* c := retain a (cells m) in Ok (Heap c (holders m ++ [Some a]))
      | None => Ok m
      end
  | Take h k =>
      match at_ h (holders m), at_ k (holders m) with
      | Some a, Some b => if (h =? k)%nat then Ok m else take_from h k a b m
      | _, _ => Ok m
      end
  | Write h f =>
      match at_ h (holders m) with Some a => write_in h a f m | None => Ok m end
  | Drop h =>
      match at_ h (holders m) with
      | Some a => let* c := release a (cells m) in Ok (Heap c (put h None (holders m)))
      | None => Ok m
      end
  end.
Fixpoint acts (xs : list action) (m : heap) : Res heap :=
  match xs with [] => Ok m | x :: t => let* m' := act x m in acts t m' end.

(** stream.rs 216-224 and the other getters: what a holder shows. *)
Definition shows (h : nat) (m : heap) : Res (option V) :=
  match at_ h (holders m) with
  | Some a => match at_ a (cells m) with Some (_, v) => Ok (Some v) | None => Panic end
  | None => Ok None
  end.
(** How many pictures are in memory. *)
Definition live (m : heap) : nat := length (filter (fun o => match o with Some _ => true | None => false end) (cells m)).
End Share.
Arguments heap : clear implicits.
Arguments action : clear implicits.
