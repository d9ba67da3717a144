(** * [DatFile.parse] and [DatFile.save] over a file system (/repo/src/genieutils/datfile.py:45-55).

    Simplifications: a file system maps paths (strings, taken as canonical: no links, no
    directories) to contents; nothing else happens while [save] runs (for several at once see
    Sched.v).  zlib is a pair of
    functions [deflate]/[inflate] given as parameters, so that every theorem says in its
    statement what it needs of them.  Opening and writing may fail for reasons of the operating
    system (missing directory, permissions, full disk); which [OSError] is raised is not
    distinguished. *)
From Verif Require Import Base PyStr Versions Spec M_DatFile.
Open Scope Z_scope.
Local Open Scope list_scope.
Local Notation length := List.length.

Definition path := pystr.
Definition path_eq_dec : forall p q : path, {p = q} + {p <> q} := list_eq_dec Z.eq_dec.
Definition fs := path -> option bytes.
Definition set_file (f : fs) (p : path) (c : bytes) : fs := fun q => if path_eq_dec q p then Some c else f q.

(** datfile.py:46-50: [Path(input_file).read_bytes()], [zlib.decompress(content, wbits=-15)],
    [cls.from_bytes(ByteHandler(memoryview(data)))]. *)
Definition parse (inflate : bytes -> res bytes) (f : fs) (p : path) : res DatFile :=
  match f p with
  | None => Err FileNotFoundError
  | Some content => rbind (inflate content) from_bytes
  end.

(** datfile.py:52-55, statement by statement, as the operating system sees it.  Where [save] is:
    before [self.to_bytes()]; before the target is opened; with so many bytes still to be
    written; ended. *)
Inductive ending := Returned | Raised (e : exn) | OsFailed.
Inductive phase := Begin | Open (compressed : bytes) | Write (rest : bytes) | End (e : ending).
Definition state := (phase * fs)%type.

Inductive step (deflate : bytes -> bytes) (x : DatFile) (p : path) : state -> state -> Prop :=
(** [uncompressed = self.to_bytes()] raises (datfile.py:53) *)
| s_raise f e : to_bytes x = Err e -> step deflate x p (Begin, f) (End (Raised e), f)
(** it returns, and [zlib.compress] is called (datfile.py:53-54) *)
| s_bytes f b : to_bytes x = Ok b -> step deflate x p (Begin, f) (Open (deflate b), f)
(** [write_bytes] opens the target with mode 'wb', which empties it (datfile.py:55) *)
| s_open f c : step deflate x p (Open c, f) (Write c, set_file f p [])
| s_open_fails f c : step deflate x p (Open c, f) (End OsFailed, f)
(** some more bytes reach the file *)
| s_write f rest cur n : f p = Some cur -> (1 <= n <= length rest)%nat ->
    step deflate x p (Write rest, f) (Write (skipn n rest), set_file f p (cur ++ firstn n rest))
| s_write_fails f rest : step deflate x p (Write rest, f) (End OsFailed, f)
(** all is written *)
| s_close f : step deflate x p (Write [], f) (End Returned, f).

(** What can be found if the machine stops at any moment of [x.save(p)] started in [f]. *)
Inductive reach (deflate : bytes -> bytes) (x : DatFile) (p : path) (f : fs) : state -> Prop :=
| r_start : reach deflate x p f (Begin, f)
| r_step s t : reach deflate x p f s -> step deflate x p s t -> reach deflate x p f t.

(** [x.save(p)], started in [f], returns and leaves [f']. *)
Definition saved deflate x p f f' : Prop := reach deflate x p f (End Returned, f').

(** ** A concrete zlib: "stored" blocks (RFC 1951, 3.2.4), used only as a case that meets the
    hypotheses of the theorems.  Block: one byte BFINAL + BTYPE 00, LEN, complement of LEN
    (little-endian 16 bit), data. *)
Definition block (last : bool) (data : bytes) : bytes :=
  let n := Z.of_nat (length data) in
  [byte_of (if last then 1 else 0); byte_of n; byte_of (n / 256); byte_of (65535 - n); byte_of ((65535 - n) / 256)] ++ data.
Fixpoint store_blocks (fuel : nat) (b : bytes) : bytes :=
  match fuel with
  | O => block true b
  | S fuel => if Z.of_nat (length b) <=? 65535 then block true b
              else block false (firstn (Z.to_nat 65535) b) ++ store_blocks fuel (skipn (Z.to_nat 65535) b)
  end.
Definition store (b : bytes) : bytes := store_blocks (length b) b.
Fixpoint unstore_blocks (fuel : nat) (c : bytes) : res bytes :=
  match fuel, c with
  | S fuel, t :: l0 :: l1 :: m0 :: m1 :: rest =>
      let n := byte_val l0 + 256 * byte_val l1 in
      if negb (byte_val t / 2 =? 0) || negb (n + (byte_val m0 + 256 * byte_val m1) =? 65535)
         || (Z.of_nat (length rest) <? n) then Err ZlibError
      else if byte_val t =? 1 then Ok (firstn (Z.to_nat n) rest)
      else rbind (unstore_blocks fuel (skipn (Z.to_nat n) rest)) (fun b => Ok (firstn (Z.to_nat n) rest ++ b))
  | _, _ => Err ZlibError
  end.
Definition unstore (c : bytes) : res bytes := unstore_blocks (length c) c.
