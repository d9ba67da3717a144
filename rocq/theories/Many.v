(** * Several programs at once: the texts of World.v, PyEdit.v and Cli.v as processes that share the files.

    Each process has its own objects and its own output; the files are shared.  One step of one process
    happens at a time, in any order; a step is what the operating system does at once: opening a file,
    reading or writing some bytes of it at the position the process has reached, closing it, printing some
    characters (datfile.py:46, 55; scripts.py:19).  As in Sched.v a write beyond the end of a file fills
    the gap with zeros, and a file that another process changes while it is read is read in parts.
    Simplifications: those of World.v; threads that share objects are not modelled; no file is deleted or
    renamed (the library does neither). *)
From Verif Require Import Base PyStr Common Py FS World.
From Verif Require Sched.
From Coq Require Import String.
Open Scope Z_scope.
Local Open Scope list_scope.

(** Where a process is.  [Reading p k acc]: [acc] was read of [p]; [Filling p b n t]: [n] bytes of [b]
    were written to [p]; [Failed]: the operating system reported an error. *)
Inductive stage : Type :=
| At (t : act val)
| Reading (p : path) (k : bytes -> act val) (acc : bytes)
| Filling (p : path) (b : bytes) (n : nat) (t : act val)
| Failed.
(** A process: where it is and what it has printed. *)
Definition process := (stage * pystr)%type.

Inductive pstep : process * fs -> process * fs -> Prop :=
| p_open p k f o cur : f p = Some cur -> pstep ((At (ReadFile p k), o), f) ((Reading p k [], o), f)
| p_missing p k f o : f p = None -> pstep ((At (ReadFile p k), o), f) ((At (Stop (Raise (Std FileNotFoundError))), o), f)
| p_open_fails p k f o : pstep ((At (ReadFile p k), o), f) ((Failed, o), f)
| p_read p k acc f o cur n : f p = Some cur -> (1 <= n)%nat -> (List.length acc + n <= List.length cur)%nat ->
    pstep ((Reading p k acc, o), f) ((Reading p k (acc ++ firstn n (skipn (List.length acc) cur)), o), f)
| p_read_end p k acc f o cur : f p = Some cur -> (List.length cur <= List.length acc)%nat -> pstep ((Reading p k acc, o), f) ((At (k acc), o), f)
| p_read_fails p k acc f o : pstep ((Reading p k acc, o), f) ((Failed, o), f)
| p_create p b t f o : pstep ((At (WriteFile p b t), o), f) ((Filling p b 0 t, o), set_file f p [])
| p_create_fails p b t f o : pstep ((At (WriteFile p b t), o), f) ((Failed, o), f)
| p_write p b n t f o cur k : f p = Some cur -> (1 <= k)%nat -> (n + k <= List.length b)%nat ->
    pstep ((Filling p b n t, o), f) ((Filling p b (n + k) t, o), set_file f p (Sched.write_at cur n (firstn k (skipn n b))))
| p_write_fails p b n t f o : pstep ((Filling p b n t, o), f) ((Failed, o), f)
| p_close p b n t f o : n = List.length b -> pstep ((Filling p b n t, o), f) ((At t, o), f)
| p_print s t f o k : (1 <= k <= List.length s)%nat -> pstep ((At (Print s t), o), f) ((At (Print (skipn k s) t), o ++ firstn k s), f)
| p_print_fails s t f o : pstep ((At (Print s t), o), f) ((Failed, o), f)
| p_printed t f o : pstep ((At (Print [] t), o), f) ((At t, o), f).

(** All processes together. *)
Definition system := ((nat -> process) * fs)%type.
Definition put (st : nat -> process) (i : nat) (s : process) : nat -> process := fun j => if Nat.eq_dec j i then s else st j.
Inductive together (programs : nat -> act val) (f0 : fs) : system -> Prop :=
| t_start : together programs f0 (fun i => (At (programs i), []), f0)
| t_step st f i s' f' : together programs f0 (st, f) -> pstep (st i, f) (s', f') -> together programs f0 (put st i s', f').

(** The files a program may read and those it may write, whatever it finds in them. *)
Fixpoint uses (reads writes : path -> Prop) (t : act val) : Prop :=
  match t with
  | Stop _ => True
  | ReadFile p k => reads p /\ forall c, uses reads writes (k c)
  | WriteFile p _ t => writes p /\ uses reads writes t
  | Print _ t => uses reads writes t
  end.
(** No program writes what another one reads or writes. *)
Definition apart (reads writes : nat -> path -> Prop) : Prop :=
  forall i j p, i <> j -> writes j p -> ~ reads i p /\ ~ writes i p.
(** Where the process would be if it were alone (World.v): a file that is being read was not read yet. *)
Definition alone (s : stage) : pc val :=
  match s with
  | At t => Running t
  | Reading p k _ => Running (ReadFile p k)
  | Filling p b n t => Writing p (skipn n b) t
  | Failed => OsError
  end.
