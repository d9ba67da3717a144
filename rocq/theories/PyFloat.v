(** * Python floats and [struct] format character 'f'.

    A Python [float] is an IEEE-754 binary64 number; [struct.pack('f', x)]
    converts it to binary32 and [struct.unpack('f', b)] converts back.  The
    conversions are CPython/C behaviour used by
    /repo/src/genieutils/datatypes.py:31 and :35 and by the '<...f...' formats of
    task.py and unit.py.  Everything is at the level of bit patterns, so signed
    zeros, infinities and NaN payloads are distinguished. *)
From Verif Require Import Base PyInt.
From Coq Require Import ZArith Lia ZifyBool.
Open Scope Z_scope.

(** A Python float: the eight bytes of its binary64 pattern, least significant first. *)
Record f64 : Set := mkF64 { fb0 : byte; fb1 : byte; fb2 : byte; fb3 : byte;
                      fb4 : byte; fb5 : byte; fb6 : byte; fb7 : byte }.

Definition f64_list (x : f64) : bytes :=
  [fb0 x; fb1 x; fb2 x; fb3 x; fb4 x; fb5 x; fb6 x; fb7 x].
Definition f64_bits (x : f64) : Z := le_value (f64_list x).
Definition f64_of_bits (z : Z) : f64 :=
  mkF64 (byte_of z) (byte_of (z / 256)) (byte_of (z / 256 / 256))
        (byte_of (z / 256 / 256 / 256)) (byte_of (z / 256 / 256 / 256 / 256))
        (byte_of (z / 256 / 256 / 256 / 256 / 256))
        (byte_of (z / 256 / 256 / 256 / 256 / 256 / 256))
        (byte_of (z / 256 / 256 / 256 / 256 / 256 / 256 / 256)).

Lemma f64_list_of_bits z : f64_list (f64_of_bits z) = le_bytes 8 z.
Proof. reflexivity. Qed.

Lemma f64_bits_of_bits z : 0 <= z < 2 ^ 64 -> f64_bits (f64_of_bits z) = z.
Proof.
  intros H. unfold f64_bits. rewrite f64_list_of_bits, le_value_le_bytes.
  apply Z.mod_small. exact H.
Qed.

Lemma f64_list_inj x y : f64_list x = f64_list y -> x = y.
Proof. destruct x, y; unfold f64_list; simpl. intros H; injection H; intros; subst; reflexivity. Qed.

Lemma f64_of_bits_bits x : f64_of_bits (f64_bits x) = x.
Proof.
  apply f64_list_inj. rewrite f64_list_of_bits. unfold f64_bits.
  apply (le_bytes_le_value (f64_list x)).
Qed.

Lemma f64_bits_range x : 0 <= f64_bits x < 2 ^ 64.
Proof. apply (le_value_range (f64_list x)). Qed.

Lemma f64_bits_inj x y : f64_bits x = f64_bits y -> x = y.
Proof. intros H. rewrite <- (f64_of_bits_bits x), <- (f64_of_bits_bits y), H. reflexivity. Qed.

Definition f64_eqb (x y : f64) : bool := f64_bits x =? f64_bits y.
Lemma f64_eqb_eq x y : f64_eqb x y = true <-> x = y.
Proof. unfold f64_eqb. rewrite Z.eqb_eq. split; [apply f64_bits_inj|intros ->; reflexivity]. Qed.

(** ** Fields of a binary32 word (0 <= b < 2^32) *)
Definition f32_sign (b : Z) : Z := b / 2 ^ 31.
Definition f32_exp (b : Z) : Z := (b / 2 ^ 23) mod 256.
Definition f32_man (b : Z) : Z := b mod 2 ^ 23.
(** A signalling NaN: quiet bit clear, payload non-zero. *)
Definition f32_snan (b : Z) : bool :=
  (f32_exp b =? 255) && (0 <? f32_man b) && (f32_man b <? 2 ^ 22).

(** ** Fields of a binary64 word (0 <= x < 2^64) *)
Definition f64_sign (x : Z) : Z := x / 2 ^ 63.
Definition f64_exp (x : Z) : Z := (x / 2 ^ 52) mod 2048.
Definition f64_man (x : Z) : Z := x mod 2 ^ 52.

(** ** binary32 -> binary64 (C cast [(double)f]): exact; NaNs become quiet. *)
Definition widen_mag (e m : Z) : Z :=
  if e =? 255 then
    2047 * 2 ^ 52 + (if m =? 0 then 0 else (if m <? 2 ^ 22 then m + 2 ^ 22 else m) * 2 ^ 29)
  else if e =? 0 then
    if m =? 0 then 0
    else (Z.log2 m + 874) * 2 ^ 52 + (m - 2 ^ Z.log2 m) * 2 ^ (52 - Z.log2 m)
  else (e + 896) * 2 ^ 52 + m * 2 ^ 29.
Definition widen (b : Z) : Z :=
  f32_sign b * 2 ^ 63 + widen_mag (f32_exp b) (f32_man b).

(** ** binary64 -> binary32 (C cast [(float)d]): round to nearest, ties to even. *)
(** [M / 2^d] rounded to the nearest integer, ties to even. *)
Definition rne (M d : Z) : Z :=
  let f := M / 2 ^ d in
  let r := M mod 2 ^ d in
  if 2 * r <? 2 ^ d then f
  else if 2 ^ d <? 2 * r then f + 1
  else if Z.even f then f else f + 1.

(** Significand and exponent of a finite binary64 word: value = M * 2^E. *)
Definition f64_M (e m : Z) : Z := if e =? 0 then m else 2 ^ 52 + m.
Definition f64_E (e : Z) : Z := (if e =? 0 then 1 else e) - 1075.

(** Exponent of the unit in the last place of the binary32 result. *)
Definition f32_quantum (M E : Z) : Z := Z.max (-149) (E + Z.log2 M - 23).

(** Magnitude bits before the overflow check: since a rounded significand of 2^24
    carries into the exponent field, adding is enough. *)
Definition narrow_finite (e m : Z) : Z :=
  let M := f64_M e m in
  let E := f64_E e in
  if M =? 0 then 0
  else let q := f32_quantum M E in (q + 149) * 2 ^ 23 + rne M (q - E).

Definition f32_inf : Z := 255 * 2 ^ 23.

Definition narrow_mag (e m : Z) : Z :=
  if e =? 2047 then
    f32_inf + (if m =? 0 then 0
               else let p := m / 2 ^ 29 in if p <? 2 ^ 22 then p + 2 ^ 22 else p)
  else Z.min (narrow_finite e m) f32_inf.
Definition narrow (x : Z) : Z :=
  f64_sign x * 2 ^ 31 + narrow_mag (f64_exp x) (f64_man x).

(** A finite double whose rounding is out of the binary32 range. *)
Definition narrow_overflows (x : Z) : bool :=
  negb (f64_exp x =? 2047) && (f32_inf <=? narrow_finite (f64_exp x) (f64_man x)).

(** ** Lemmas *)
Lemma f32_split b : 0 <= b < 2 ^ 32 ->
  b = f32_sign b * 2 ^ 31 + f32_exp b * 2 ^ 23 + f32_man b
  /\ 0 <= f32_sign b < 2 /\ 0 <= f32_exp b < 256 /\ 0 <= f32_man b < 2 ^ 23.
Proof.
  intros H. unfold f32_sign, f32_exp, f32_man.
  assert (E : b / 2 ^ 31 = b / 2 ^ 23 / 256) by (rewrite Z.div_div by lia; reflexivity).
  rewrite E. set (q := b / 2 ^ 23).
  pose proof (Z.div_mod b (2 ^ 23) ltac:(lia)) as Hb. fold q in Hb.
  pose proof (Z.mod_pos_bound b (2 ^ 23) ltac:(lia)) as Hm.
  pose proof (Z.div_mod q 256 ltac:(lia)) as Hq.
  pose proof (Z.mod_pos_bound q 256 ltac:(lia)) as Hqm.
  change (2 ^ 31) with (256 * 2 ^ 23). change (2 ^ 32) with (2 * 256 * 2 ^ 23) in H.
  repeat split; try lia.
Qed.

Lemma f32_unsplit s e m : 0 <= s < 2 -> 0 <= e < 256 -> 0 <= m < 2 ^ 23 ->
  let b := s * 2 ^ 31 + e * 2 ^ 23 + m in
  0 <= b < 2 ^ 32 /\ f32_sign b = s /\ f32_exp b = e /\ f32_man b = m.
Proof.
  intros Hs He Hm b. unfold f32_sign, f32_exp, f32_man.
  assert (Hb : 0 <= b < 2 ^ 32) by (subst b; lia).
  split; [exact Hb|].
  assert (D : b / 2 ^ 23 = s * 256 + e).
  { subst b. replace (s * 2 ^ 31 + e * 2 ^ 23 + m) with ((s * 256 + e) * 2 ^ 23 + m) by lia.
    rewrite Z.div_add_l by lia. rewrite Z.div_small by lia. lia. }
  split; [|split].
  - change (2 ^ 31) with (2 ^ 23 * 256). rewrite <- Z.div_div by lia. rewrite D.
    rewrite Z.div_add_l by lia. rewrite Z.div_small by lia. lia.
  - rewrite D. rewrite Z.add_comm, Z_mod_plus_full. apply Z.mod_small; lia.
  - subst b. replace (s * 2 ^ 31 + e * 2 ^ 23 + m) with (m + (s * 256 + e) * 2 ^ 23) by lia.
    rewrite Z_mod_plus_full. apply Z.mod_small; lia.
Qed.

Lemma f64_unsplit s e m : 0 <= s < 2 -> 0 <= e < 2048 -> 0 <= m < 2 ^ 52 ->
  let b := s * 2 ^ 63 + (e * 2 ^ 52 + m) in
  0 <= b < 2 ^ 64 /\ f64_sign b = s /\ f64_exp b = e /\ f64_man b = m.
Proof.
  intros Hs He Hm b. unfold f64_sign, f64_exp, f64_man.
  assert (Hb : 0 <= b < 2 ^ 64) by (subst b; lia).
  split; [exact Hb|].
  assert (D : b / 2 ^ 52 = s * 2048 + e).
  { subst b. replace (s * 2 ^ 63 + (e * 2 ^ 52 + m)) with ((s * 2048 + e) * 2 ^ 52 + m) by lia.
    rewrite Z.div_add_l by lia. rewrite Z.div_small by lia. lia. }
  split; [|split].
  - change (2 ^ 63) with (2 ^ 52 * 2048). rewrite <- Z.div_div by lia. rewrite D.
    rewrite Z.div_add_l by lia. rewrite Z.div_small by lia. lia.
  - rewrite D. rewrite Z.add_comm, Z_mod_plus_full. apply Z.mod_small; lia.
  - subst b. replace (s * 2 ^ 63 + (e * 2 ^ 52 + m)) with (m + (s * 2048 + e) * 2 ^ 52) by lia.
    rewrite Z_mod_plus_full. apply Z.mod_small; lia.
Qed.

Lemma f64_split b : 0 <= b < 2 ^ 64 ->
  b = f64_sign b * 2 ^ 63 + (f64_exp b * 2 ^ 52 + f64_man b)
  /\ 0 <= f64_sign b < 2 /\ 0 <= f64_exp b < 2048 /\ 0 <= f64_man b < 2 ^ 52.
Proof.
  intros H. unfold f64_sign, f64_exp, f64_man.
  assert (E : b / 2 ^ 63 = b / 2 ^ 52 / 2048) by (rewrite Z.div_div by lia; reflexivity).
  rewrite E. set (q := b / 2 ^ 52).
  pose proof (Z.div_mod b (2 ^ 52) ltac:(lia)) as Hb. fold q in Hb.
  pose proof (Z.mod_pos_bound b (2 ^ 52) ltac:(lia)) as Hm.
  pose proof (Z.div_mod q 2048 ltac:(lia)) as Hq.
  pose proof (Z.mod_pos_bound q 2048 ltac:(lia)) as Hqm.
  change (2 ^ 63) with (2048 * 2 ^ 52). change (2 ^ 64) with (2 * 2048 * 2 ^ 52) in H.
  repeat split; try lia.
Qed.

(** The biased exponent and mantissa of the widened word. *)
Lemma widen_mag_split e m : 0 <= e < 256 -> 0 <= m < 2 ^ 23 ->
  exists e' m', widen_mag e m = e' * 2 ^ 52 + m' /\ 0 <= e' < 2048 /\ 0 <= m' < 2 ^ 52
    /\ narrow_mag e' m' = e * 2 ^ 23 + (if (e =? 255) && (0 <? m) && (m <? 2 ^ 22) then m + 2 ^ 22 else m)
    /\ (e' =? 2047) = (e =? 255)
    /\ (e <> 255 -> narrow_finite e' m' < f32_inf).
Proof.
  intros He Hm. unfold widen_mag.
  destruct (e =? 255) eqn:E255.
  - (* infinity / NaN *)
    assert (e = 255) by lia. subst e.
    destruct (m =? 0) eqn:M0.
    + exists 2047, 0. assert (m = 0) by lia. subst m.
      repeat split; try lia; reflexivity.
    + set (p := if m <? 2 ^ 22 then m + 2 ^ 22 else m).
      assert (Hp : 2 ^ 22 <= p < 2 ^ 23) by (subst p; destruct (m <? 2 ^ 22) eqn:?; lia).
      exists 2047, (p * 2 ^ 29).
      assert (Hpp : (p * 2 ^ 29) / 2 ^ 29 = p) by (apply Z.div_mul; lia).
      split; [reflexivity|]. split; [lia|]. split; [lia|]. split; [|split; [reflexivity|lia]].
      unfold narrow_mag. rewrite Z.eqb_refl.
      destruct (p * 2 ^ 29 =? 0) eqn:?; [lia|]. cbv zeta. rewrite Hpp.
      destruct (p <? 2 ^ 22) eqn:?; [lia|].
      unfold f32_inf. subst p.
      destruct (m <? 2 ^ 22) eqn:Em; destruct (0 <? m) eqn:Em0; simpl; lia.
  - destruct (e =? 0) eqn:E0.
    + assert (e = 0) by lia. subst e. destruct (m =? 0) eqn:M0.
      * exists 0, 0. assert (m = 0) by lia. subst m.
        repeat split; try lia; try reflexivity.
      * (* subnormal *)
        set (k := Z.log2 m).
        assert (Hk : 2 ^ k <= m < 2 ^ (k + 1)).
        { subst k. pose proof (Z.log2_spec m ltac:(lia)). unfold Z.succ in *. lia. }
        assert (Hk0 : 0 <= k) by apply Z.log2_nonneg.
        assert (Hk22 : k <= 22).
        { assert (k < 23); [|lia]. apply Z.log2_lt_pow2; lia. }
        assert (Hpow : 2 ^ k * 2 ^ (52 - k) = 2 ^ 52).
        { rewrite <- Z.pow_add_r by lia. f_equal. lia. }
        assert (Hd : 0 < 2 ^ (52 - k)) by (apply Z.pow_pos_nonneg; lia).
        assert (Hk1 : 2 ^ (k + 1) = 2 * 2 ^ k) by (rewrite Z.pow_add_r by lia; lia).
        exists (k + 874), ((m - 2 ^ k) * 2 ^ (52 - k)).
        split; [reflexivity|]. split; [lia|].
        assert (Hm' : 0 <= (m - 2 ^ k) * 2 ^ (52 - k) < 2 ^ 52) by (split; nia).
        split; [exact Hm'|].
        assert (HM : f64_M (k + 874) ((m - 2 ^ k) * 2 ^ (52 - k)) = m * 2 ^ (52 - k)).
        { unfold f64_M. destruct (k + 874 =? 0) eqn:?; [lia|]. nia. }
        assert (HlogM : Z.log2 (m * 2 ^ (52 - k)) = 52).
        { rewrite Z.log2_mul_pow2 by lia. fold k. lia. }
        assert (HN : narrow_finite (k + 874) ((m - 2 ^ k) * 2 ^ (52 - k)) = m).
        { unfold narrow_finite. rewrite HM. cbv zeta.
          destruct (m * 2 ^ (52 - k) =? 0) eqn:?; [nia|].
          unfold f32_quantum. rewrite HlogM.
          assert (HE : f64_E (k + 874) = k - 201).
          { unfold f64_E. destruct (k + 874 =? 0) eqn:?; lia. }
          rewrite HE. rewrite Z.max_l by lia.
          replace (-149 - (k - 201)) with (52 - k) by lia.
          unfold rne. rewrite Z.div_mul by lia. rewrite Z.mod_mul by lia.
          destruct (2 * 0 <? 2 ^ (52 - k)) eqn:?; lia. }
        split; [|split].
        -- unfold narrow_mag. destruct (k + 874 =? 2047) eqn:?; [lia|].
           rewrite HN. unfold f32_inf. simpl. lia.
        -- lia.
        -- intros _. rewrite HN. unfold f32_inf. lia.
    + (* normal *)
      exists (e + 896), (m * 2 ^ 29).
      split; [reflexivity|]. split; [lia|]. split; [lia|].
      assert (HM : f64_M (e + 896) (m * 2 ^ 29) = (2 ^ 23 + m) * 2 ^ 29).
      { unfold f64_M. destruct (e + 896 =? 0) eqn:?; lia. }
      assert (HlogM : Z.log2 ((2 ^ 23 + m) * 2 ^ 29) = 52).
      { rewrite Z.log2_mul_pow2 by lia.
        replace (Z.log2 (2 ^ 23 + m)) with 23; [lia|].
        symmetry. apply Z.log2_unique; unfold Z.succ; lia. }
      assert (HN : narrow_finite (e + 896) (m * 2 ^ 29) = e * 2 ^ 23 + m).
      { unfold narrow_finite. rewrite HM. cbv zeta.
        destruct ((2 ^ 23 + m) * 2 ^ 29 =? 0) eqn:?; [lia|].
        unfold f32_quantum. rewrite HlogM.
        assert (HE : f64_E (e + 896) = e - 179).
        { unfold f64_E. destruct (e + 896 =? 0) eqn:?; lia. }
        rewrite HE. rewrite Z.max_r by lia.
        replace (e - 179 + 52 - 23 - (e - 179)) with 29 by lia.
        unfold rne. rewrite Z.div_mul by lia. rewrite Z.mod_mul by lia.
        destruct (2 * 0 <? 2 ^ 29) eqn:?; lia. }
      split; [|split].
      * unfold narrow_mag. destruct (e + 896 =? 2047) eqn:?; [lia|].
        rewrite HN. unfold f32_inf. simpl. lia.
      * lia.
      * intros _. rewrite HN. unfold f32_inf. lia.
Qed.

Lemma widen_range b : 0 <= b < 2 ^ 32 -> 0 <= widen b < 2 ^ 64.
Proof.
  intros H. destruct (f32_split b H) as (_ & Hs & He & Hm).
  destruct (widen_mag_split _ _ He Hm) as (e' & m' & Hw & He' & Hm' & _).
  unfold widen. rewrite Hw. apply f64_unsplit; assumption.
Qed.

(** Loading a 4-byte float and storing it again gives the same word, except that
    a signalling NaN gets its quiet bit set. *)
Lemma narrow_widen b : 0 <= b < 2 ^ 32 ->
  narrow (widen b) = if f32_snan b then b + 2 ^ 22 else b.
Proof.
  intros H. destruct (f32_split b H) as (Hb & Hs & He & Hm).
  destruct (widen_mag_split _ _ He Hm) as (e' & m' & Hw & He' & Hm' & Hn & _).
  unfold widen, narrow. rewrite Hw.
  destruct (f64_unsplit _ _ _ Hs He' Hm') as (_ & -> & -> & ->).
  rewrite Hn. unfold f32_snan.
  destruct ((f32_exp b =? 255) && (0 <? f32_man b) && (f32_man b <? 2 ^ 22)); lia.
Qed.

Lemma narrow_widen_no_overflow b : 0 <= b < 2 ^ 32 -> narrow_overflows (widen b) = false.
Proof.
  intros H. destruct (f32_split b H) as (Hb & Hs & He & Hm).
  destruct (widen_mag_split _ _ He Hm) as (e' & m' & Hw & He' & Hm' & Hn & H255 & Hf).
  unfold narrow_overflows, widen. rewrite Hw.
  destruct (f64_unsplit _ _ _ Hs He' Hm') as (_ & _ & -> & ->).
  destruct (f32_exp b =? 255) eqn:E.
  - rewrite H255. reflexivity.
  - rewrite H255. assert (f32_exp b <> 255) by lia. specialize (Hf H0). simpl. lia.
Qed.

(** Quieting is invisible after loading. *)
Lemma widen_narrow_widen b : 0 <= b < 2 ^ 32 -> widen (narrow (widen b)) = widen b.
Proof.
  intros H. rewrite (narrow_widen b H). destruct (f32_snan b) eqn:Hs; [|reflexivity].
  destruct (f32_split b H) as (Hb & Hsg & He & Hm).
  unfold f32_snan in Hs.
  assert (E255 : f32_exp b = 255) by lia.
  assert (Hm2 : 0 <= f32_man b + 2 ^ 22 < 2 ^ 23) by lia.
  destruct (f32_unsplit _ _ _ Hsg He Hm2) as (_ & Hs' & He' & Hm').
  replace (f32_sign b * 2 ^ 31 + f32_exp b * 2 ^ 23 + (f32_man b + 2 ^ 22)) with (b + 2 ^ 22) in * by lia.
  unfold widen. rewrite Hs', He', Hm'. f_equal. unfold widen_mag. rewrite E255.
  change (255 =? 255) with true. cbv iota.
  destruct (f32_man b + 2 ^ 22 =? 0) eqn:?; [lia|].
  destruct (f32_man b =? 0) eqn:?; [lia|].
  destruct (f32_man b + 2 ^ 22 <? 2 ^ 22) eqn:?; [lia|].
  destruct (f32_man b <? 2 ^ 22) eqn:?; lia.
Qed.

(** Rounding stays between the neighbouring integers. *)
Lemma rne_bounds M d : 0 <= d -> M / 2 ^ d <= rne M d <= M / 2 ^ d + 1.
Proof.
  intros Hd. unfold rne. cbv zeta.
  destruct (2 * (M mod 2 ^ d) <? 2 ^ d); [lia|].
  destruct (2 ^ d <? 2 * (M mod 2 ^ d)); [lia|].
  destruct (Z.even (M / 2 ^ d)); lia.
Qed.

(** The distance [q - E] by which a significand is shifted is always at least 29. *)
Lemma f64_M_range e m : 0 <= e < 2047 -> 0 <= m < 2 ^ 52 -> 0 <= f64_M e m < 2 ^ 53.
Proof. unfold f64_M. destruct (e =? 0) eqn:?; lia. Qed.

Lemma quantum_shift e m : 0 <= e < 2047 -> 0 <= m < 2 ^ 52 -> f64_M e m <> 0 ->
  29 <= f32_quantum (f64_M e m) (f64_E e) - f64_E e.
Proof.
  intros He Hm HM. unfold f32_quantum, f64_E, f64_M in *.
  destruct (e =? 0) eqn:E0; [lia|].
  assert (Z.log2 (2 ^ 52 + m) = 52); [apply Z.log2_unique; unfold Z.succ; lia|]. lia.
Qed.

Lemma narrow_finite_nonneg e m : 0 <= e < 2047 -> 0 <= m < 2 ^ 52 -> 0 <= narrow_finite e m.
Proof.
  intros He Hm. unfold narrow_finite. cbv zeta.
  destruct (f64_M e m =? 0) eqn:E; [lia|].
  pose proof (quantum_shift e m He Hm ltac:(lia)) as Hq.
  pose proof (f64_M_range e m He Hm) as HM.
  set (q := f32_quantum (f64_M e m) (f64_E e)) in *.
  pose proof (rne_bounds (f64_M e m) (q - f64_E e) ltac:(lia)) as Hr.
  assert (0 <= f64_M e m / 2 ^ (q - f64_E e)) by (apply Z.div_pos; [lia|apply Z.pow_pos_nonneg; lia]).
  assert (-149 <= q) by (subst q; unfold f32_quantum; lia). lia.
Qed.

Lemma narrow_mag_range e m : 0 <= e < 2048 -> 0 <= m < 2 ^ 52 -> 0 <= narrow_mag e m < 2 ^ 31.
Proof.
  intros He Hm. unfold narrow_mag, f32_inf.
  destruct (e =? 2047) eqn:E.
  - destruct (m =? 0); [lia|]. cbv zeta.
    assert (0 <= m / 2 ^ 29 < 2 ^ 23).
    { split; [apply Z.div_pos; lia|apply Z.div_lt_upper_bound; lia]. }
    destruct (m / 2 ^ 29 <? 2 ^ 22) eqn:?; lia.
  - pose proof (narrow_finite_nonneg e m ltac:(lia) Hm). lia.
Qed.

Lemma narrow_range x : 0 <= x < 2 ^ 64 -> 0 <= narrow x < 2 ^ 32.
Proof.
  intros H. destruct (f64_split x H) as (_ & Hs & He & Hm).
  unfold narrow. pose proof (narrow_mag_range _ _ He Hm). lia.
Qed.

(** ** Float-level interface *)
(** [struct.unpack('f', ..)] on the little-endian word [b]. *)
Definition f64_of_f32 (b : Z) : f64 := f64_of_bits (widen b).
(** The binary32 word stored for [x]. *)
Definition f32_of_f64 (x : f64) : Z := narrow (f64_bits x).
(** [x] is finite but does not fit binary32. *)
Definition f64_too_large (x : f64) : bool := narrow_overflows (f64_bits x).
(** [x] is a value some 4-byte float can hold (in particular not a Python float
    needing more than 24 bits of precision, and not a signalling NaN). *)
Definition f32_exact (x : f64) : bool := f64_eqb (f64_of_f32 (f32_of_f64 x)) x.

Lemma f32_of_f64_range x : 0 <= f32_of_f64 x < 2 ^ 32.
Proof. apply narrow_range, f64_bits_range. Qed.

Lemma f64_bits_of_f32 b : 0 <= b < 2 ^ 32 -> f64_bits (f64_of_f32 b) = widen b.
Proof. intros H. apply f64_bits_of_bits, widen_range, H. Qed.

Lemma f32_exact_of_f32 b : 0 <= b < 2 ^ 32 -> f32_exact (f64_of_f32 b) = true.
Proof.
  intros H. unfold f32_exact, f32_of_f64. apply f64_eqb_eq.
  rewrite f64_bits_of_f32 by assumption. unfold f64_of_f32.
  rewrite widen_narrow_widen by assumption. reflexivity.
Qed.

Lemma f32_exact_eq x : f32_exact x = true <-> f64_of_f32 (f32_of_f64 x) = x.
Proof. apply f64_eqb_eq. Qed.

Lemma f32_exact_iff x : f32_exact x = true <-> exists b, 0 <= b < 2 ^ 32 /\ f64_of_f32 b = x.
Proof.
  split.
  - intros H. apply f32_exact_eq in H.
    exists (f32_of_f64 x). split; [apply f32_of_f64_range|exact H].
  - intros (b & Hb & <-). apply f32_exact_of_f32, Hb.
Qed.

Lemma f32_exact_fits x : f32_exact x = true -> f64_too_large x = false.
Proof.
  intros H. apply f32_exact_iff in H. destruct H as (b & Hb & <-).
  unfold f64_too_large. rewrite f64_bits_of_f32 by assumption.
  apply narrow_widen_no_overflow, Hb.
Qed.

Lemma f64_of_f32_of_f64 x : f32_exact x = true -> f64_of_f32 (f32_of_f64 x) = x.
Proof. apply f32_exact_eq. Qed.

Lemma f32_of_f64_of_f32 b : 0 <= b < 2 ^ 32 -> f32_snan b = false -> f32_of_f64 (f64_of_f32 b) = b.
Proof.
  intros H Hs. unfold f32_of_f64. rewrite f64_bits_of_f32 by assumption.
  rewrite narrow_widen by assumption. rewrite Hs. reflexivity.
Qed.

(** Python float literals used by the code. *)
(** Python [float(z)]: nearest binary64 value, ties to even; [None] = OverflowError. *)
Definition f64_of_Z (z : Z) : option f64 :=
  let M := Z.abs z in
  let s := if z <? 0 then 1 else 0 in
  if M =? 0 then Some (f64_of_bits 0)
  else
    let l := Z.log2 M in
    let sig := if l <=? 52 then M * 2 ^ (52 - l) else rne M (l - 52) in
    let mag := (l + 1022) * 2 ^ 52 + sig in
    if mag <? 2047 * 2 ^ 52 then Some (f64_of_bits (s * 2 ^ 63 + mag)) else None.

Definition f64_zero : f64 := f64_of_bits 0.                         (* 0.0 *)
Definition f64_one : f64 := f64_of_bits (1023 * 2 ^ 52).            (* 1.0 *)
Example f64_one_is_f32_one : f64_of_f32 (127 * 2 ^ 23) = f64_one.
Proof. vm_compute. reflexivity. Qed.

(** A stored float is never a signalling NaN. *)
Lemma narrow_mag_not_snan e m : 0 <= e < 2048 -> 0 <= m < 2 ^ 52 ->
  narrow_mag e m <= f32_inf \/ f32_inf + 2 ^ 22 <= narrow_mag e m.
Proof.
  intros He Hm. unfold narrow_mag.
  destruct (e =? 2047) eqn:E; [|left; lia].
  destruct (m =? 0); [left; lia|]. cbv zeta. right.
  destruct (m / 2 ^ 29 <? 2 ^ 22) eqn:?; [|lia].
  assert (0 <= m / 2 ^ 29) by (apply Z.div_pos; lia). lia.
Qed.

Lemma narrow_not_snan x : 0 <= x < 2 ^ 64 -> f32_snan (narrow x) = false.
Proof.
  intros H. destruct (f64_split x H) as (_ & Hs & He & Hm).
  pose proof (narrow_mag_range _ _ He Hm) as Hr.
  pose proof (narrow_mag_not_snan _ _ He Hm) as Hq.
  unfold narrow. set (g := narrow_mag _ _) in *. clearbody g.
  assert (Hg : g = (g / 2 ^ 23) * 2 ^ 23 + g mod 2 ^ 23) by (pose proof (Z.div_mod g (2 ^ 23)); lia).
  pose proof (Z.mod_pos_bound g (2 ^ 23) ltac:(lia)) as Hg2.
  assert (Hg1 : 0 <= g / 2 ^ 23 < 256).
  { split; [apply Z.div_pos; lia|apply Z.div_lt_upper_bound; lia]. }
  destruct (f32_unsplit (f64_sign x) _ _ Hs Hg1 Hg2) as (_ & _ & Hee & Hmm).
  replace (f64_sign x * 2 ^ 31 + g / 2 ^ 23 * 2 ^ 23 + g mod 2 ^ 23) with (f64_sign x * 2 ^ 31 + g) in * by lia.
  unfold f32_snan. rewrite Hee, Hmm. unfold f32_inf in Hq. lia.
Qed.

Lemma f32_of_f64_not_snan x : f32_snan (f32_of_f64 x) = false.
Proof. apply narrow_not_snan, f64_bits_range. Qed.
