(** What a successful execution computed: every stream is some node's operation
    applied to streams made by its inputs.  Unlike [means] (GraphSpec) this
    covers nodes that may fail and whose result may depend on the image cache,
    the disk or the previous output. *)
From Verif Require Import Machine GraphModel GraphSpec.

Section Made.
Context {N St Ca F W K : Type}.
Variable ops : nodeops N St Ca F W.
Variable key : N -> K.
(** Invariants of the cache and the disk, and of streams. *)
Variable cinv : Ca -> Prop.
Variable sinv : St -> Prop.
Variable nodes : list N.
Variable inputs : nat -> list nat.
Variable fr : F.

(** [n] is the [i]th node, up to what computing changes (its status). *)
Definition like (i : nat) (n : N) : Prop :=
  exists n0, nth_error nodes i = Some n0 /\ key n = key n0.

(** Some chain of consumers from [start] asks [i] for [mode]. *)
Inductive asks (start : nat) : nat -> Z -> Prop :=
| asks_start : asks start start mode_all
| asks_input : forall i mode n h ns modes j m,
    asks start i mode -> like i n -> Forall2 like (inputs i) ns ->
    n_validate ops n mode h ns = Ok modes -> In (j, m) (combine (inputs i) modes) ->
    asks start j m.

(** [made start i mode v c c']: [v] is what node [i], asked for [mode], computes
    from streams its inputs made; [c] and [c'] are cache and disk before and
    after. *)
Inductive made (start : nat) : nat -> Z -> St -> Ca -> Ca -> Prop :=
| made_node : forall i mode n vs out c n' st v c',
    asks start i mode -> like i n -> made_all start (inputs i) vs -> Forall sinv vs -> cinv c -> sinv out ->
    n_compute ops n fr mode vs out c = Ok (n', st, v, c') -> (st = NsValid \/ st = NsWarning) ->
    made start i mode v c c'
with made_all (start : nat) : list nat -> list St -> Prop :=
| made_nil : made_all start [] []
| made_cons : forall i is mode v vs c c',
    made start i mode v c c' -> made_all start is vs -> made_all start (i :: is) (v :: vs).
End Made.

(** Computing any node asked for (among [which]) keeps [key] and the invariants. *)
Definition keeps_key {N St Ca F W K} (ops : nodeops N St Ca F W) (key : N -> K) (cinv : Ca -> Prop) (sinv : St -> Prop)
    (nodes : list N) (inputs : nat -> list nat) (start : nat) (which : nat -> Prop) : Prop :=
  forall i m n, which i -> asks ops key nodes inputs start i m -> like key nodes i n ->
  forall fr mode ins out c n' st out' c', n_compute ops n fr mode ins out c = Ok (n', st, out', c') -> cinv c ->
    length ins = length (inputs i) -> Forall sinv ins -> sinv out ->
    key n' = key n /\ cinv c' /\ sinv out'.

(** A node records the status of its latest computation; validating asks every
    input for something. *)
Definition records_status {N St Ca F W T} (ops : nodeops N St Ca F W) (stat : N -> T) (code : node_status -> T) : Prop :=
  forall n fr mode ins out c n' st out' c', n_compute ops n fr mode ins out c = Ok (n', st, out', c') ->
    stat n' = code st.
Definition asks_each {N St Ca F W} (ops : nodeops N St Ca F W) : Prop :=
  forall n mode h ns modes, n_validate ops n mode h ns = Ok modes -> length modes = length ns.
