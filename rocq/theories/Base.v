(** * Base: Python-level results, exceptions and byte strings.

    Nothing in this file is taken from /repo: it fixes the vocabulary in which
    the functions of /repo/src/genieutils are transcribed ("exceptions as
    values").  *)
From Coq Require Export List Arith ZArith NArith Lia Bool.
From Coq Require Import Strings.Byte.
Export ListNotations.
#[global] Arguments Z.mul : simpl never.
#[global] Arguments Z.add : simpl never.
#[global] Arguments Z.sub : simpl never.
#[global] Arguments Z.div : simpl never.
#[global] Arguments Z.modulo : simpl never.
#[global] Arguments Z.pow : simpl never.
#[global] Arguments Z.of_nat : simpl never.
#[global] Arguments Z.to_nat : simpl never.

(** Python exceptions that the modelled code can raise. *)
Inductive exn : Set :=
| OverflowError          (* int.to_bytes out of range; struct.pack '<f' too large *)
| AssertionError         (* assert statements *)
| StructError            (* struct.error *)
| UnicodeDecodeError     (* bytes.decode() *)
| UnicodeEncodeError     (* str.encode() of a surrogate *)
| ValueError             (* Version(...) lookup; unpacking arity *)
| IndexError             (* list index out of range *)
| AttributeError         (* attribute access on None *)
| NotImplementedError    (* GenieClass defaults *)
| ZlibError              (* zlib.error *)
| FileNotFoundError.     (* Path.read_bytes *)

(** A Python computation either returns a value or raises. *)
Inductive res (A : Type) : Type :=
| Ok (a : A)
| Err (e : exn).
Arguments Ok {A} a.
Arguments Err {A} e.

Definition rbind {A B} (m : res A) (k : A -> res B) : res B :=
  match m with Ok a => k a | Err e => Err e end.

(** The value of a computation that returned, if it did. *)
Definition ok_of {A} (m : res A) : option A :=
  match m with Ok a => Some a | Err _ => None end.

Definition byte := Byte.byte.
(** Python [bytes] / [memoryview] contents: every element is 0..255 by
    construction, so quantifying over [bytes] needs no side condition. *)
Definition bytes := list byte.

Definition byte_val (b : byte) : Z := Z.of_N (Byte.to_N b).

(** The byte with value [z mod 256]. *)
Definition byte_of (z : Z) : byte :=
  match Byte.of_N (Z.to_N (z mod 256)) with Some b => b | None => x00 end.

Lemma byte_val_range b : (0 <= byte_val b < 256)%Z.
Proof.
  unfold byte_val. pose proof (Byte.to_N_bounded b). lia.
Qed.

Lemma byte_val_of z : byte_val (byte_of z) = (z mod 256)%Z.
Proof.
  unfold byte_val, byte_of.
  assert (Hr : (0 <= z mod 256 < 256)%Z) by (apply Z.mod_pos_bound; lia).
  destruct (Byte.of_N (Z.to_N (z mod 256))) as [b|] eqn:E.
  - apply Byte.to_of_N in E. rewrite E. lia.
  - apply Byte.of_N_None_iff in E. lia.
Qed.

Lemma byte_of_val b : byte_of (byte_val b) = b.
Proof.
  unfold byte_of, byte_val.
  pose proof (Byte.to_N_bounded b) as Hb.
  rewrite Z.mod_small by lia. rewrite N2Z.id, Byte.of_to_N. reflexivity.
Qed.

Lemma byte_val_inj a b : byte_val a = byte_val b -> a = b.
Proof.
  intros H. rewrite <- (byte_of_val a), <- (byte_of_val b), H. reflexivity.
Qed.

Lemma byte_of_mod z : byte_of (z mod 256) = byte_of z.
Proof. apply byte_val_inj. rewrite !byte_val_of, Z.mod_mod by lia. reflexivity. Qed.

Lemma byte_of_add256 a b : byte_of (a + 256 * b) = byte_of a.
Proof.
  apply byte_val_inj. rewrite !byte_val_of.
  replace (a + 256 * b)%Z with (a + b * 256)%Z by lia.
  apply Z_mod_plus_full.
Qed.

Definition byte_eqb (a b : byte) : bool := (byte_val a =? byte_val b)%Z.
Lemma byte_eqb_eq a b : byte_eqb a b = true <-> a = b.
Proof.
  unfold byte_eqb. rewrite Z.eqb_eq. split; [apply byte_val_inj|intros ->; reflexivity].
Qed.

(** Python integers are [Z]; Python [str] is a list of code points. *)
Definition pystr := list Z.

(** Python [b''.join([e1, ..., en])] where the elements are evaluated left to
    right and the first exception propagates. *)
Fixpoint join (l : list (res bytes)) : res bytes :=
  match l with
  | [] => Ok []
  | e :: r => rbind e (fun a => rbind (join r) (fun b => Ok (a ++ b)))
  end.

(** Python [e1 + e2] on [bytes]. *)
Definition wapp (e1 e2 : res bytes) : res bytes :=
  rbind e1 (fun a => rbind e2 (fun b => Ok (a ++ b))).
Infix "+++" := wapp (at level 60, right associativity).

Lemma wapp_assoc a b c : ((a +++ b) +++ c) = (a +++ (b +++ c)).
Proof.
  destruct a as [a|]; simpl; [|reflexivity].
  destruct b as [b|]; simpl; [|reflexivity].
  destruct c as [c|]; simpl; [|reflexivity].
  rewrite app_assoc. reflexivity.
Qed.

Lemma join_cons a l : join (a :: l) = (a +++ join l).
Proof. reflexivity. Qed.

Lemma join_app l1 l2 : join (l1 ++ l2) = (join l1 +++ join l2).
Proof.
  induction l1 as [|a l1 IH]; simpl app.
  - simpl. unfold wapp; simpl. destruct (join l2); reflexivity.
  - rewrite !join_cons, IH, wapp_assoc. reflexivity.
Qed.

Lemma wapp_nil_r a : (a +++ Ok []) = a.
Proof. destruct a as [a|]; unfold wapp; simpl; [rewrite app_nil_r|]; reflexivity. Qed.
