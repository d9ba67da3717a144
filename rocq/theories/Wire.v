(** * Specification: what is on disk.

    Independent of the model of the Python code: a record is a list of typed cells,
    every cell has closed-form bytes, and the record is their concatenation. *)
From Verif Require Import Base PyFloat PyStr.
Open Scope Z_scope.
Local Open Scope list_scope.

Inductive cell : Set :=
| U8 (z : Z) | I8 (z : Z) | U16 (z : Z) | I16 (z : Z) | U32 (z : Z) | I32 (z : Z)
| F32 (x : f64)             (* binary32; a finite value that is too large becomes infinity *)
| F32s (x : f64)            (* binary32; a finite value that is too large is refused *)
| Text (s : pystr)          (* marker 0x0A60, 16-bit UTF-8 length, UTF-8 text *)
| Padded (n : nat) (s : pystr)  (* UTF-8 text filled up with NUL to n bytes *)
| Refuse.                   (* never representable *)

(** The [n] bytes of [z], least significant first: byte [i] is [floor(z / 256^i) mod 256]. *)
Definition little_endian (n : nat) (z : Z) : bytes :=
  map (fun i => byte_of (z / 256 ^ Z.of_nat i)) (seq 0 n).

Definition within (lo z hi : Z) : bool := (lo <=? z) && (z <=? hi).

(** Bytes of a cell, when it is representable. *)
Definition cell_bytes (c : cell) : option bytes :=
  match c with
  | U8 z => if within 0 z 255 then Some (little_endian 1 z) else None
  | I8 z => if within (-128) z 127 then Some (little_endian 1 z) else None
  | U16 z => if within 0 z 65535 then Some (little_endian 2 z) else None
  | I16 z => if within (-32768) z 32767 then Some (little_endian 2 z) else None
  | U32 z => if within 0 z 4294967295 then Some (little_endian 4 z) else None
  | I32 z => if within (-2147483648) z 2147483647 then Some (little_endian 4 z) else None
  | F32 x => Some (little_endian 4 (f32_of_f64 x))
  | F32s x => if f64_too_large x then None else Some (little_endian 4 (f32_of_f64 x))
  | Text s =>
      if forallb scalar s && within 0 (Z.of_nat (length (utf8 s))) 65535
      then Some ([byte_of 96 (* 0x60 *); byte_of 10 (* 0x0A *)]
                 ++ little_endian 2 (Z.of_nat (length (utf8 s))) ++ utf8 s)
      else None
  | Padded n s =>
      if forallb scalar s then Some (utf8 s ++ repeat (byte_of 0) (n - length (utf8 s))) else None
  | Refuse => None
  end.

(** Bytes of a record: concatenation of its cells, if all are representable. *)
Fixpoint encode (l : list cell) : option bytes :=
  match l with
  | [] => Some []
  | c :: r => match cell_bytes c, encode r with
              | Some a, Some b => Some (a ++ b)
              | _, _ => None
              end
  end.

(** The value of the cell can be read back unchanged: integers in range, floats that
    are binary32 values, text without trailing NUL that fits. *)
Definition cell_ok (c : cell) : bool :=
  match c with
  | U8 z => within 0 z 255
  | I8 z => within (-128) z 127
  | U16 z => within 0 z 65535
  | I16 z => within (-32768) z 32767
  | U32 z => within 0 z 4294967295
  | I32 z => within (-2147483648) z 2147483647
  | F32 x | F32s x => f32_exact x
  | Text s => forallb scalar s && no_trailing_nul s && within 0 (Z.of_nat (length (utf8 s))) 65535
  | Padded n s => forallb scalar s && no_trailing_nul s && Nat.leb (length (utf8 s)) n
  | Refuse => false
  end.
Definition cells_ok (l : list cell) : Prop := forallb cell_ok l = true.

(** Number of bytes of a cell, whatever its value. *)
Definition cell_size (c : cell) : nat :=
  match c with
  | U8 _ | I8 _ => 1
  | U16 _ | I16 _ => 2
  | U32 _ | I32 _ | F32 _ | F32s _ => 4
  | Text s => 4 + length (utf8 s)
  | Padded n s => Nat.max n (length (utf8 s))
  | Refuse => 0
  end.
Fixpoint cells_size (l : list cell) : nat :=
  match l with [] => 0 | c :: r => cell_size c + cells_size r end.

(** File versions as numbers (10 * the version), 0 for UNDEFINED. *)
From Verif Require Import Versions.
Definition vnum (v : Version) : Z :=
  match v with
  | UNDEFINED => 0 | VER_71 => 71 | VER_72 => 72 | VER_73 => 73 | VER_74 => 74 | VER_75 => 75
  | VER_76 => 76 | VER_77 => 77 | VER_78 => 78 | VER_84 => 84 | VER_88 => 88
  end.
(** [since n v]: v is version n/10 or later. *)
Definition since (n : Z) (v : Version) : bool := n <=? vnum v.

(** The count stored in front of a list. *)
Definition count {A} (l : list A) : Z := Z.of_nat (length l).
(** Cells of the present elements of a list with empty slots. *)
Definition slots {A} (f : A -> list cell) (l : list (option A)) : list cell :=
  flat_map (fun o => match o with Some x => f x | None => [] end) l.
(** Presence flags, one i32 per slot. *)
Definition flags {A} (l : list (option A)) : list cell :=
  map (fun o => match o with Some _ => I32 1 | None => I32 0 end) l.
Definition opt_cells {A} (f : A -> list cell) (o : option A) : list cell :=
  match o with Some x => f x | None => [] end.
