(** Model of MmapSource: src/reader/mmap_source.cpp, include/libvroom/vroom.h:150-171.
    The operating system is a list of answers chosen by the environment; the
    calls made are recorded.  madvise has no observable effect and is left
    out.  The content of a file does not change while it is mapped. *)
From Verif Require Import Base MmapSpec.

(** MmapSource::Impl, mmap_source.cpp:10-14; fd -1 is None, nullptr is None. *)
Record source := mkSource { fd : option nat; data : option nat; size : nat }.

(** MmapSource::MmapSource, line 16 *)
Definition new_source : source := mkSource None None 0.

(** What the system answers to the calls of one open(): ::open fails, fstat
    fails, fstat reports a length but mmap fails, or everything works.  A file
    of length 0 is never mapped. *)
Inductive answer :=
| NoFile
| NoStat (d : nat)
| NoMap (d : nat) (len : nat)
| Works (d : nat) (a : nat) (content : bytes).

(** MmapSource::close, lines 73-83: the calls it makes and the state after. *)
Definition close (s : source) : list event * source :=
  let (ev1, d1) :=
    match data s with
    | Some a => if 0 <? size s then ([Unmapped a (size s)], None) else ([], Some a)
    | None => ([], None)
    end in
  let ev2 := match fd s with Some d => [Closed d] | None => [] end in
  (ev1 ++ ev2, mkSource None d1 0).

(** MmapSource::open, lines 22-59: true = success. *)
Definition open (a : answer) (s : source) : list event * source * bool :=
  let (ev0, s0) := match fd s with Some _ => close s | None => ([], s) end in
  match a with
  | NoFile => (ev0, mkSource None (data s0) (size s0), false)
  | NoStat d => (ev0 ++ [Opened d; Closed d], mkSource None (data s0) (size s0), false)
  | NoMap d len =>
      if len =? 0 then (ev0 ++ [Opened d], mkSource (Some d) (data s0) 0, true)
      else (ev0 ++ [Opened d; Closed d], mkSource None (data s0) len, false)
  | Works d ad content =>
      if length content =? 0 then (ev0 ++ [Opened d], mkSource (Some d) (data s0) 0, true)
      else (ev0 ++ [Opened d; Mapped ad content], mkSource (Some d) (Some ad) (length content), true)
  end.

(** MmapSource::is_open, line 69 *)
Definition is_open (s : source) : bool := match fd s with Some _ => true | None => false end.

(** A program that uses any number of sources, named by numbers.  The class
    can be neither copied nor moved (a unique_ptr member and a user-declared
    destructor), so these are all the operations.  [None]: not alive. *)
Inductive call := New (k : nat) | Open (k : nat) (a : answer) | Close (k : nat) | Destroy (k : nat).

Record world := mkWorld { sources : nat -> option source; calls : list event }.
Definition start : world := mkWorld (fun _ => None) [].
Definition put (k : nat) (s : option source) (f : nat -> option source) : nat -> option source :=
  fun j => if j =? k then s else f j.

(** Calls on objects that are not alive, and construction on top of a living
    object, are not C++ programs and do nothing here. *)
Definition step (w : world) (c : call) : world :=
  match c with
  | New k => match sources w k with
             | None => mkWorld (put k (Some new_source) (sources w)) (calls w)
             | Some _ => w
             end
  | Open k a => match sources w k with
                | Some s => let '(ev, s', _) := open a s in
                            mkWorld (put k (Some s') (sources w)) (calls w ++ ev)
                | None => w
                end
  | Close k => match sources w k with
               | Some s => let (ev, s') := close s in
                           mkWorld (put k (Some s') (sources w)) (calls w ++ ev)
               | None => w
               end
  | Destroy k => match sources w k with               (* ~MmapSource, line 18 *)
                 | Some s => let (ev, _) := close s in
                             mkWorld (put k None (sources w)) (calls w ++ ev)
                 | None => w
                 end
  end.

Definition run (cs : list call) : world := fold_left step cs start.
