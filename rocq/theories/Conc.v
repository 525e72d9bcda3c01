(** Conc.v: two threads of one process that call the library at the same time.
    The code of the library between two system calls only uses memory of its own thread (sessions, buffers and
    struct SDecompressData are on the stack or allocated per call; src/core has no writable global variables),
    so an execution is an interleaving of the system calls.  The file system, the current directory, the umask and the
    privileges belong to the process.  Descriptors are only used by the thread that opened them, so every thread has its own
    table here; the numbers are names without further meaning.
    Simplification: system calls are atomic. *)
From Verif Require Import Base FS.

(** The descriptors of a thread. *)
Record fdt : Type := FDT { f_list : list (N * (path * N)); f_next : N }.
Definition fds_of (o : os) : fdt := FDT (o_fds o) (o_next o).
Definition seen (o : os) (f : fdt) : os := OS (o_fs o) (o_free o) (o_cwd o) (o_umask o) (o_priv o) (f_list f) (f_next f).

(** A thread: what it still has to do and its descriptors. *)
Definition thread (A : Type) : Type := prog A * fdt.

(** One step: the next system call; a thread that has ended does nothing. *)
Definition step {A} (x : thread A) (o : os) : thread A * os :=
  match fst x with
  | PSys c k => let '(r, o1) := sys c (seen o (snd x)) in ((k r, fds_of o1), seen o1 (fds_of o))
  | _ => (x, o)
  end.

(** The schedule says which thread makes the next step ([true]: the first). *)
Fixpoint interleave {A B} (sched : list bool) (a : thread A) (b : thread B) (o : os) : thread A * thread B * os :=
  match sched with
  | [] => (a, b, o)
  | true :: r => let '(a1, o1) := step a o in interleave r a1 b o1
  | false :: r => let '(b1, o1) := step b o in interleave r a b1 o1
  end.

(** Steps of each thread in a schedule. *)
Fixpoint turns (w : bool) (sched : list bool) : nat :=
  match sched with
  | [] => O
  | x :: r => if Bool.eqb x w then S (turns w r) else turns w r
  end.
