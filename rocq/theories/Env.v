(** Env.v: other processes that use the file system while the library works.
    The library makes its system calls one after the other (src/core/zlibwt_hl_decompress_routines.c:213-305,
    and the callbacks, 326-470); other processes may change the file system between any two of them.
    Simplification: system calls are atomic. *)
From Verif Require Import Base Format ArchiveSpec FS HLSpec.

(** What other processes may do that keep to the path [u] and everything below it, and that leave [n] bytes free on the disk
    (or do not use the disk at all).  They do not change the current directory, the umask, the privileges and the descriptors, which
    belong to our process. *)
Definition elsewhere (u : path) (n : N) (o o' : os) : Prop :=
  N.min n (o_free o) <= o_free o' /\ o_cwd o' = o_cwd o /\ o_umask o' = o_umask o /\ o_priv o' = o_priv o /\
  o_fds o' = o_fds o /\ o_next o' = o_next o /\ forall q, strip u q = None -> o_fs o' q = o_fs o q.

(** [disturbed u n p o w a o' w']: the program [p], started in the state [o], ends with the value [a] in the state [o'], while other
    processes make any number of such changes at any time; [w'] is the state after the last of their changes ([w] if there is none). *)
Inductive disturbed {A} (u : path) (n : N) : prog A -> os -> os -> A -> os -> os -> Prop :=
| di_ret a o w : disturbed u n (PRet a) o w a o w
| di_other p o o1 w a o' w' : elsewhere u n o o1 -> disturbed u n p o1 o1 a o' w' -> disturbed u n p o w a o' w'
| di_step c k o w a o' w' : disturbed u n (k (fst (sys c o))) (snd (sys c o)) w a o' w' -> disturbed u n (PSys c k) o w a o' w'.

(** The state without anything at or below [u]. *)
Definition without (u : path) (o : os) : os :=
  OS (fun q => match strip u q with Some _ => None | None => o_fs o q end)
    (o_free o) (o_cwd o) (o_umask o) (o_priv o) (o_fds o) (o_next o).
