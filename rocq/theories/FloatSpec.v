(** * Specification: the numbers that float patterns stand for.

    Every finite binary64 or binary32 number is an integer multiple of 2^-1074, so its value
    is given as that integer: [f64_value x = number * 2^1074].  From IEEE 754: sign bit,
    biased exponent field [e], fraction field [m]; [e = 0] is subnormal. *)
From Verif Require Import Base PyFloat.
Open Scope Z_scope.

(** Fields of a binary64 pattern. *)
Definition d_sign (x : f64) : Z := f64_bits x / 2 ^ 63.
Definition d_exp (x : f64) : Z := (f64_bits x / 2 ^ 52) mod 2 ^ 11.
Definition d_man (x : f64) : Z := f64_bits x mod 2 ^ 52.
(** Fields of a binary32 word. *)
Definition s_sign (b : Z) : Z := b / 2 ^ 31.
Definition s_exp (b : Z) : Z := (b / 2 ^ 23) mod 2 ^ 8.
Definition s_man (b : Z) : Z := b mod 2 ^ 23.

Definition f64_finite (x : f64) : Prop := d_exp x <> 2047.
Definition f64_nan (x : f64) : Prop := d_exp x = 2047 /\ d_man x <> 0.
Definition f32_finite (b : Z) : Prop := 0 <= b < 2 ^ 32 /\ s_exp b <> 255.

(** binary64: (2^52 + m) * 2^(e - 1075), or m * 2^-1074. *)
Definition f64_mag (x : f64) : Z :=
  if d_exp x =? 0 then d_man x else (2 ^ 52 + d_man x) * 2 ^ (d_exp x - 1).
Definition f64_value (x : f64) : Z := if d_sign x =? 0 then f64_mag x else - f64_mag x.
(** binary32: (2^23 + m) * 2^(e - 150), or m * 2^-149. *)
Definition f32_mag (b : Z) : Z :=
  if s_exp b =? 0 then s_man b * 2 ^ 925 else (2 ^ 23 + s_man b) * 2 ^ (s_exp b + 924).
Definition f32_value (b : Z) : Z := if s_sign b =? 0 then f32_mag b else - f32_mag b.

(** [b] is a binary32 number nearest to the number [x], and if another one is equally near,
    [b] has an even last bit. *)
Definition nearest_even (x : Z) (b : Z) : Prop :=
  f32_finite b /\
  forall b', f32_finite b' ->
    Z.abs (f32_value b - x) <= Z.abs (f32_value b' - x) /\
    (Z.abs (f32_value b - x) = Z.abs (f32_value b' - x) -> f32_value b' = f32_value b \/ Z.even b = true).
