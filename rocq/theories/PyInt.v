(** * Python [int.to_bytes] / [int.from_bytes] with byteorder='little'.

    These are CPython built-ins, called from
    /repo/src/genieutils/datatypes.py:21 and :25. *)
From Verif Require Import Base.
From Coq Require Import ZArith Lia ZifyBool.
Open Scope Z_scope.

(** Unsigned little-endian value of a byte string of any length (an empty
    string is 0, as in CPython). *)
Fixpoint le_value (bs : bytes) : Z :=
  match bs with
  | [] => 0
  | b :: r => byte_val b + 256 * le_value r
  end.

(** Number of distinct values of an n-byte word: 256^n. *)
Definition word (n : nat) : Z := 256 ^ Z.of_nat n.

(** [int.from_bytes(bs, 'little', signed=s)]: two's complement when signed. *)
Definition int_from_bytes (bs : bytes) (signed : bool) : Z :=
  let u := le_value bs in
  if signed then
    if word (length bs) <=? 2 * u then u - word (length bs) else u
  else u.

(** The [n] low bytes of [z], least significant first. *)
Fixpoint le_bytes (n : nat) (z : Z) : bytes :=
  match n with
  | O => []
  | S n' => byte_of z :: le_bytes n' (z / 256)
  end.

(** Range accepted by [int.to_bytes(n, 'little', signed=s)]. *)
Definition int_fits (n : nat) (signed : bool) (z : Z) : bool :=
  if signed then (- word n <=? 2 * z) && (2 * z <? word n)
  else (0 <=? z) && (z <? word n).

(** [z.to_bytes(n, 'little', signed=s)]: OverflowError outside the range. *)
Definition int_to_bytes (z : Z) (n : nat) (signed : bool) : res bytes :=
  if int_fits n signed z then Ok (le_bytes n z) else Err OverflowError.

(** ** Facts *)
Lemma word_S n : word (S n) = 256 * word n.
Proof. unfold word. rewrite Nat2Z.inj_succ, Z.pow_succ_r by lia. reflexivity. Qed.
Lemma word_0 : word 0 = 1. Proof. reflexivity. Qed.
Lemma word_pos n : 0 < word n.
Proof. unfold word. apply Z.pow_pos_nonneg; lia. Qed.

Lemma le_value_range bs : 0 <= le_value bs < word (length bs).
Proof.
  induction bs as [|b r IH]; simpl le_value; simpl length.
  - rewrite word_0. lia.
  - rewrite word_S. pose proof (byte_val_range b). lia.
Qed.

Lemma le_bytes_length n z : length (le_bytes n z) = n.
Proof. revert z; induction n as [|n IH]; intros z; simpl; [|rewrite IH]; reflexivity. Qed.

Lemma le_value_le_bytes n z : le_value (le_bytes n z) = z mod word n.
Proof.
  revert z; induction n as [|n IH]; intros z; simpl.
  - rewrite word_0, Z.mod_1_r. reflexivity.
  - rewrite IH, byte_val_of, word_S.
    rewrite (Z.rem_mul_r z 256 (word n)); [reflexivity|lia|apply word_pos].
Qed.

Lemma le_bytes_le_value bs : le_bytes (length bs) (le_value bs) = bs.
Proof.
  induction bs as [|b r IH]; simpl; [reflexivity|].
  rewrite byte_of_add256, byte_of_val. f_equal.
  replace ((byte_val b + 256 * le_value r) / 256) with (le_value r); [exact IH|].
  pose proof (byte_val_range b).
  replace (byte_val b + 256 * le_value r) with (le_value r * 256 + byte_val b) by lia.
  rewrite Z.div_add_l by lia. rewrite Z.div_small by lia. lia.
Qed.

Lemma le_bytes_mod n z : le_bytes n (z mod word n) = le_bytes n z.
Proof.
  rewrite <- (le_value_le_bytes n z).
  rewrite <- (le_bytes_length n z) at 1. apply le_bytes_le_value.
Qed.

Lemma le_bytes_congr n a b : a mod word n = b mod word n -> le_bytes n a = le_bytes n b.
Proof. intros H. rewrite <- (le_bytes_mod n a), <- (le_bytes_mod n b), H. reflexivity. Qed.

(** Reading back what was written: for every width, signedness and value in range. *)
Lemma int_roundtrip n s z :
  int_fits n s z = true -> int_from_bytes (le_bytes n z) s = z.
Proof.
  unfold int_fits, int_from_bytes. rewrite le_bytes_length, le_value_le_bytes.
  pose proof (word_pos n) as Hw. set (w := word n) in *.
  destruct s; intros H.
  - assert (H' : - w <= 2 * z < w) by lia.
    destruct (Z_lt_le_dec z 0) as [Hn|Hp].
    + assert (Hm : z mod w = z + w).
      { replace (z mod w) with ((z + 1 * w) mod w) by apply Z_mod_plus_full.
        rewrite Z.mul_1_l. apply Z.mod_small. lia. }
      rewrite Hm. destruct (w <=? 2 * (z + w)) eqn:E; lia.
    + rewrite Z.mod_small by lia. destruct (w <=? 2 * z) eqn:E; lia.
  - apply Z.mod_small. lia.
Qed.

(** Whatever is read is in the range of the width of the input. *)
Lemma int_from_bytes_fits bs s : int_fits (length bs) s (int_from_bytes bs s) = true.
Proof.
  unfold int_fits, int_from_bytes.
  pose proof (le_value_range bs) as H. set (w := word (length bs)) in *.
  destruct s; [destruct (w <=? 2 * le_value bs) eqn:E|]; lia.
Qed.

(** Writing back what was read. *)
Lemma le_bytes_int_from_bytes bs s : le_bytes (length bs) (int_from_bytes bs s) = bs.
Proof.
  rewrite <- (le_bytes_le_value bs) at 3. apply le_bytes_congr.
  unfold int_from_bytes. destruct s; [|reflexivity].
  destruct (word (length bs) <=? 2 * le_value bs); [|reflexivity].
  replace (le_value bs - word (length bs)) with (le_value bs + (-1) * word (length bs)) by lia.
  apply Z_mod_plus_full.
Qed.

Lemma word_mono n m : (n <= m)%nat -> word n <= word m.
Proof. intros H. unfold word. apply Z.pow_le_mono_r; lia. Qed.

(** A short read still yields a value in the range of the full width. *)
Lemma int_fits_mono n m s z : (n <= m)%nat -> int_fits n s z = true -> int_fits m s z = true.
Proof.
  intros H. unfold int_fits. pose proof (word_mono n m H). destruct s; lia.
Qed.
