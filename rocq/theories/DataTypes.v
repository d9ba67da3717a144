(** * Model of /repo/src/genieutils/datatypes.py *)
From Verif Require Import Base PyInt PyFloat PyStr.
Open Scope Z_scope.
Local Open Scope list_scope.

(** datatypes.py:6-7, String.from_bytes:
    [bytes(content).rstrip(b'\0').decode()]. *)
Definition String_from_bytes (content : bytes) : res pystr :=
  bytes_decode (rstrip0 content).

(** datatypes.py:10-15, String.to_bytes.  [length=None] is [None]; a length of 0 is
    falsy and treated like None.  [b'\0' * zfill] with a negative count is empty,
    which is what truncated subtraction on [nat] gives. *)
Definition String_to_bytes (content : pystr) (len : option nat) : res bytes :=
  rbind (str_encode content) (fun encoded =>
    let len := match len with
               | None | Some O => (List.length encoded + 1)%nat
               | Some n => n
               end in
    let zfill := (len - List.length encoded)%nat in
    Ok (encoded ++ repeat (byte_of 0) zfill)).

(** datatypes.py:20-21, Int.from_bytes. *)
Definition Int_from_bytes (content : bytes) (signed : bool) : Z :=
  int_from_bytes content signed.

(** datatypes.py:24-25, Int.to_bytes. *)
Definition Int_to_bytes (content : Z) (len : nat) (signed : bool) : res bytes :=
  int_to_bytes content len signed.

(** The byte order of the machine: [struct] format 'f' without prefix is native. *)
Inductive endian : Set := LittleEndian | BigEndian.
Definition order (e : endian) (bs : bytes) : bytes :=
  match e with LittleEndian => bs | BigEndian => rev bs end.

(** datatypes.py:30-31, Float.from_bytes: [struct.unpack('f', content)[0]];
    struct.error unless the buffer has 4 bytes. *)
Definition Float_from_bytes (host : endian) (content : bytes) : res f64 :=
  if Nat.eqb (List.length content) 4 then Ok (f64_of_f32 (le_value (order host content)))
  else Err StructError.

(** datatypes.py:34-35, Float.to_bytes: [struct.pack('f', content)].  The native
    'f' is a plain C cast: a finite value that is too large becomes an infinity
    and no exception is raised. *)
Definition Float_to_bytes (host : endian) (content : f64) : res bytes :=
  Ok (order host (le_bytes 4 (f32_of_f64 content))).
