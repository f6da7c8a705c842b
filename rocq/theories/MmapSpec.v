(** What is expected of memory-mapped sources, without reference to the code:
    a ledger of what the process holds, replayed from the system calls it
    made. *)
From Verif Require Import Base.

(** The system calls that hand out or take back something.  [Mapped a c]: mmap
    returned address a for a file of content c; [Unmapped a n]: munmap(a, n). *)
Inductive event :=
| Opened (fd : nat)
| Closed (fd : nat)
| Mapped (a : nat) (c : bytes)
| Unmapped (a n : nat).

(** What the process holds: descriptors, and mappings with their content. *)
Definition holdings : Type := list nat * list (nat * bytes).

(** [Replay evs h]: the calls [evs], oldest first, are all legal starting with
    nothing held (nothing is handed out twice, nothing is taken back that is
    not held, a mapping is taken back as a whole), and afterwards the process
    holds [h]. *)
Inductive Replay : list event -> holdings -> Prop :=
| Replay_nil : Replay [] ([], [])
| Replay_opened evs fd fds maps : Replay evs (fds, maps) -> ~ In fd fds ->
    Replay (evs ++ [Opened fd]) (fd :: fds, maps)
| Replay_closed evs fd l r maps : Replay evs (l ++ fd :: r, maps) ->
    Replay (evs ++ [Closed fd]) (l ++ r, maps)
| Replay_mapped evs a c fds maps : Replay evs (fds, maps) -> ~ In a (map fst maps) ->
    Replay (evs ++ [Mapped a c]) (fds, (a, c) :: maps)
| Replay_unmapped evs a c l r fds : Replay evs (fds, l ++ (a, c) :: r) ->
    Replay (evs ++ [Unmapped a (length c)]) (fds, l ++ r).

(** How often something was handed out and taken back. *)
Definition opened (fd : nat) (evs : list event) : nat :=
  length (filter (fun e => match e with Opened x => x =? fd | _ => false end) evs).
Definition closed (fd : nat) (evs : list event) : nat :=
  length (filter (fun e => match e with Closed x => x =? fd | _ => false end) evs).
Definition mapped (a : nat) (evs : list event) : nat :=
  length (filter (fun e => match e with Mapped x _ => x =? a | _ => false end) evs).
Definition unmapped (a : nat) (evs : list event) : nat :=
  length (filter (fun e => match e with Unmapped x _ => x =? a | _ => false end) evs).

(** What the operating system promises: it hands out no descriptor and no
    address that is held already. *)
Definition HonestSystem (evs : list event) : Prop :=
  (forall p d rest, evs = p ++ Opened d :: rest -> forall fds maps, Replay p (fds, maps) -> ~ In d fds) /\
  (forall p a c rest, evs = p ++ Mapped a c :: rest -> forall fds maps, Replay p (fds, maps) -> ~ In a (map fst maps)).
