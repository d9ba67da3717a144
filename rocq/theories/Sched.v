(** * Several [save]s and [parse]s at once (/repo/src/genieutils/datfile.py:45-55).

    Any number of threads or processes, each with one [x.save(p)] or [DatFile.parse(p)], run in
    any order, one step of one of them at a time; a step is what the operating system does at
    once.  As in FS.v a file system maps paths to contents.  Files are written and read
    through handles with their own positions, as [Path.write_bytes] and [Path.read_bytes] do: a
    write beyond the end of the file fills the gap with zeros.  Simplification: the objects are
    not changed while the jobs run. *)
From Verif Require Import Base PyStr Spec FS M_DatFile.
Open Scope Z_scope.
Local Open Scope list_scope.
Local Notation length := List.length.

(** Contents [cur] after [data] was written at position [pos]. *)
Definition write_at (cur : bytes) (pos : nat) (data : bytes) : bytes :=
  firstn pos cur ++ repeat (byte_of 0) (pos - length cur) ++ data ++ skipn (pos + length data) cur.

Inductive job := Save (x : DatFile) (p : path) | Load (p : path).
(** Where a job is.  [Writing c n]: [n] bytes of [c] are written; [Reading acc]: [acc] was read. *)
Inductive status :=
| Waiting
| Opening (c : bytes) | Writing (c : bytes) (n : nat) | Saved (e : ending)
| Reading (acc : bytes) | Loaded (r : res DatFile).

Inductive job_step (deflate : bytes -> bytes) (inflate : bytes -> res bytes) : job -> status * fs -> status * fs -> Prop :=
(** datfile.py:53-55, see [FS.step] *)
| j_raise x p f e : to_bytes x = Err e -> job_step deflate inflate (Save x p) (Waiting, f) (Saved (Raised e), f)
| j_bytes x p f b : to_bytes x = Ok b -> job_step deflate inflate (Save x p) (Waiting, f) (Opening (deflate b), f)
| j_open x p f c : job_step deflate inflate (Save x p) (Opening c, f) (Writing c 0, set_file f p [])
| j_open_fails x p f c : job_step deflate inflate (Save x p) (Opening c, f) (Saved OsFailed, f)
| j_write x p f c n k cur : f p = Some cur -> (1 <= k)%nat -> (n + k <= length c)%nat ->
    job_step deflate inflate (Save x p) (Writing c n, f) (Writing c (n + k), set_file f p (write_at cur n (firstn k (skipn n c))))
| j_write_fails x p f c n : job_step deflate inflate (Save x p) (Writing c n, f) (Saved OsFailed, f)
| j_close x p f c n : n = length c -> job_step deflate inflate (Save x p) (Writing c n, f) (Saved Returned, f)
(** datfile.py:47-50: open, read until there is no more, decompress, deserialise *)
| j_missing p f : f p = None -> job_step deflate inflate (Load p) (Waiting, f) (Loaded (Err FileNotFoundError), f)
| j_found p f cur : f p = Some cur -> job_step deflate inflate (Load p) (Waiting, f) (Reading [], f)
| j_read p f acc cur k : f p = Some cur -> (1 <= k)%nat -> (length acc + k <= length cur)%nat ->
    job_step deflate inflate (Load p) (Reading acc, f) (Reading (acc ++ firstn k (skipn (length acc) cur)), f)
| j_end p f acc cur : f p = Some cur -> (length cur <= length acc)%nat ->
    job_step deflate inflate (Load p) (Reading acc, f) (Loaded (rbind (inflate acc) from_bytes), f).

(** All jobs together: where each is, and the files. *)
Definition system := ((nat -> status) * fs)%type.
Definition put (st : nat -> status) (i : nat) (s : status) : nat -> status := fun j => if Nat.eq_dec j i then s else st j.
Inductive runs (deflate : bytes -> bytes) (inflate : bytes -> res bytes) (jobs : list job) (f0 : fs) : system -> Prop :=
| run_start : runs deflate inflate jobs f0 (fun _ => Waiting, f0)
| run_step st f i j s' f' : runs deflate inflate jobs f0 (st, f) -> nth_error jobs i = Some j ->
    job_step deflate inflate j (st i, f) (s', f') -> runs deflate inflate jobs f0 (put st i s', f').

(** The job writes the bytes [b], compressed, to [p]. *)
Definition writes (j : job) (p : path) (b : bytes) : Prop := exists x, j = Save x p /\ to_bytes x = Ok b.
