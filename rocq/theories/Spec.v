(** * Specification: the user-level vocabulary in which the properties are stated. *)
From Verif Require Import Base PyInt PyFloat PyStr PyStruct DataTypes Versions Common Wire Layout Shape.
From Verif Require Import M_DatFile.
Open Scope Z_scope.
Local Open Scope list_scope.

(** [DatFile.from_bytes(ByteHandler(memoryview(bs)))] (datfile.py:58), the value only. *)
Definition from_bytes (bs : bytes) : res DatFile :=
  match DatFile_from_bytes (new_handler bs) with Ok (x, _) => Ok x | Err e => Err e end.
(** [x.to_bytes()] (datfile.py:120; the version argument defaults to UNDEFINED). *)
Definition to_bytes (x : DatFile) : res bytes := DatFile_to_bytes x UNDEFINED.

(** [n] times: save, then load what was saved. *)
Fixpoint cycle (n : nat) (x : DatFile) : res DatFile :=
  match n with
  | O => Ok x
  | S n => match to_bytes x with
           | Ok bs => match from_bytes bs with Ok y => cycle n y | Err e => Err e end
           | Err e => Err e
           end
  end.

(** A reader positioned in front of [bs], anywhere in any buffer, returns [x], stops
    right behind them and loses no information. *)
Definition decodes {A} (fb : rd A) (v : Version) (bs : bytes) (x : A) : Prop :=
  forall pre post ls,
    fb (mkHandler (pre ++ bs ++ post) (length pre) v ls)
    = Ok (x, mkHandler (pre ++ bs ++ post) (length pre + length bs) v ls).

(** A record is well formed for a version: every cell of its table can be read back, and
    its shape is right. *)
Definition wf {A} (lay : Version -> A -> list cell) (shape : Version -> A -> Prop)
    (v : Version) (x : A) : Prop := cells_ok (lay v x) /\ shape v x.

(** Every well-formed record is encoded to bytes that decode to it. *)
Definition round_trips {A} (tb : A -> Version -> res bytes) (fb : rd A)
    (lay : Version -> A -> list cell) (shape : Version -> A -> Prop) : Prop :=
  forall v x, wf lay shape v x -> exists bs, tb x v = Ok bs /\ decodes fb v bs x.

(** Whatever a reader returns, from any buffer at any position, is well formed, can be
    encoded, and decodes to itself. *)
Definition stable {A} (tb : A -> Version -> res bytes) (fb : rd A)
    (lay : Version -> A -> list cell) (shape : Version -> A -> Prop) : Prop :=
  forall h x h', fb h = Ok (x, h') ->
    wf lay shape (h_version h) x /\
    exists bs, tb x (h_version h) = Ok bs /\ decodes fb (h_version h) bs x.

(** What was read between two states of the handler is exactly [bs]. *)
Definition consumed (h h' : handler) (bs : bytes) : Prop :=
  exists pre post, h_content h = pre ++ bs ++ post /\ h_offset h = length pre /\
    h_offset h' = (length pre + length bs)%nat.
(** Encoding gives back the bytes that were read iff no loss was recorded. *)
Definition re_encodes {A} (tb : A -> Version -> res bytes) (fb : rd A) : Prop :=
  forall h x h', (h_offset h <= length (h_content h))%nat -> fb h = Ok (x, h') ->
    (h_losses h' = h_losses h <-> exists bs, tb x (h_version h) = Ok bs /\ consumed h h' bs).

(** A reader leaves the buffer and the version alone. *)
Definition only_moves {A} (fb : rd A) : Prop :=
  forall h x h', fb h = Ok (x, h') -> h_content h' = h_content h /\ h_version h' = h_version h.

(** The writer returns exactly the bytes of the table, and returns iff every cell of the
    table is representable. *)
Definition returned (r : res bytes) : option bytes := match r with Ok b => Some b | Err _ => None end.
Definition follows_table {A} (tb : A -> Version -> res bytes) (lay : Version -> A -> list cell)
    (arity : A -> Prop) : Prop :=
  forall v x, arity x -> returned (tb x v) = encode (lay v x).

(** No encoding of a well-formed record is a prefix of that of another one. *)
Definition prefix_free {A} (tb : A -> Version -> res bytes)
    (lay : Version -> A -> list cell) (shape : Version -> A -> Prop) : Prop :=
  forall v x y bx by_ r, wf lay shape v x -> wf lay shape v y ->
    tb x v = Ok bx -> tb y v = Ok by_ -> by_ = bx ++ r -> x = y /\ r = [].
