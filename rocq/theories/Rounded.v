(** * Specification: an object with every float rounded to a binary32 value.

    [nearest] is the binary64 value of the binary32 word that [x] is cast to; that it is the
    nearest one, ties to even, is C41_nearest. *)
From Verif Require Import Base PyFloat M_DatFile Floats.

Definition nearest (x : f64) : f64 := f64_of_f32 (f32_of_f64 x).
Definition DatFile_rounded (x : DatFile) : DatFile := DatFile_floats nearest x.
