(** * Rounding to binary32: proofs. *)
From Verif Require Import Base PyInt PyFloat FloatSpec.
From Coq Require Import ZArith Lia ZifyBool.
Open Scope Z_scope.

(** [rne] is rounding to nearest, ties to even. *)
Lemma rne_spec M d : 0 <= M -> 0 <= d -> forall k,
  Z.abs (rne M d * 2 ^ d - M) <= Z.abs (k * 2 ^ d - M) /\
  (Z.abs (rne M d * 2 ^ d - M) = Z.abs (k * 2 ^ d - M) -> k = rne M d \/ Z.even (rne M d) = true).
Proof.
  intros HM Hd k. unfold rne. cbv zeta.
  pose proof (Z.pow_pos_nonneg 2 d ltac:(lia) Hd) as Hp. set (D := 2 ^ d) in *.
  pose proof (Z.div_mod M D ltac:(lia)) as E. pose proof (Z.mod_pos_bound M D Hp) as R.
  set (f := M / D) in *. set (r := M mod D) in *.
  assert (K : k <= f \/ f + 1 <= k) by lia.
  assert (Hf : forall j, j * D - M = (j - f) * D - r) by (intros; lia).
  rewrite !Hf.
  destruct (2 * r <? D) eqn:C1; [|destruct (D <? 2 * r) eqn:C2; [|destruct (Z.even f) eqn:Ev]].
  - replace (f - f) with 0 by lia. destruct K as [K|K].
    + assert ((k - f) * D <= 0) by nia. split; [lia|]. intros. left. nia.
    + assert (D <= (k - f) * D) by nia. split; [lia|]. intros. exfalso. lia.
  - replace (f + 1 - f) with 1 by lia. destruct K as [K|K].
    + assert ((k - f) * D <= 0) by nia. split; [lia|]. intros. exfalso. lia.
    + assert (D <= (k - f) * D) by nia. split; [lia|]. intros. left. nia.
  - replace (f - f) with 0 by lia. split; [|auto]. destruct K as [K|K].
    + assert ((k - f) * D <= 0) by nia. lia.
    + assert (D <= (k - f) * D) by nia. lia.
  - replace (f + 1 - f) with 1 by lia. split; [|intros _; right; rewrite Z.even_add, Ev; reflexivity].
    destruct K as [K|K].
    + assert ((k - f) * D <= 0) by nia. lia.
    + assert (D <= (k - f) * D) by nia. lia.
Qed.

Lemma rne_le_iff M d k : 0 <= M -> 0 <= d -> Z.even k = true -> k <= rne M d <-> (2 * k - 1) * 2 ^ d <= 2 * M.
Proof.
  intros HM Hd Ek. unfold rne. cbv zeta.
  pose proof (Z.pow_pos_nonneg 2 d ltac:(lia) Hd) as Hp. set (D := 2 ^ d) in *.
  pose proof (Z.div_mod M D ltac:(lia)) as E. pose proof (Z.mod_pos_bound M D Hp) as R.
  set (f := M / D) in *. set (r := M mod D) in *.
  assert (E2 : forall j, j * D - 2 * M = (j - 2 * f) * D - 2 * r) by (intros; lia).
  assert (K : k <= f \/ k = f + 1 \/ f + 2 <= k) by lia.
  specialize (E2 (2 * k - 1)).
  destruct K as [K|[K|K]].
  - assert ((2 * k - 1 - 2 * f) * D <= - D) by nia.
    destruct (2 * r <? D), (D <? 2 * r), (Z.even f); split; lia.
  - subst k. replace (2 * (f + 1) - 1 - 2 * f) with 1 in E2 by lia.
    rewrite Z.even_add in Ek. change (Z.even 1) with false in Ek. destruct (Z.even f); [discriminate|].
    destruct (2 * r <? D) eqn:?, (D <? 2 * r) eqn:?; split; lia.
  - assert (3 * D <= (2 * k - 1 - 2 * f) * D) by nia.
    destruct (2 * r <? D), (D <? 2 * r), (Z.even f); split; lia.
Qed.

(** ** Magnitudes *)
Definition mag64 (e m : Z) : Z := f64_M e m * 2 ^ (f64_E e + 1074).
Lemma f64_mag_eq x : f64_mag x = mag64 (f64_exp (f64_bits x)) (f64_man (f64_bits x)).
Proof.
  unfold f64_mag, mag64, f64_M, f64_E. change (d_exp x) with (f64_exp (f64_bits x)). change (d_man x) with (f64_man (f64_bits x)).
  destruct (f64_exp (f64_bits x) =? 0) eqn:E.
  - change (1 - 1075 + 1074) with 0. lia.
  - f_equal. f_equal. lia.
Qed.

(** Value of a magnitude word put together from a quantum and a significand. *)
Lemma f32_mag_word s q r : 0 <= s < 2 -> -149 <= q -> 0 <= r <= 2 ^ 24 -> (q <> -149 -> 2 ^ 23 <= r) ->
  (q + 149) * 2 ^ 23 + r < 255 * 2 ^ 23 ->
  let b := s * 2 ^ 31 + ((q + 149) * 2 ^ 23 + r) in
  f32_finite b /\ s_sign b = s /\ f32_mag b = r * 2 ^ (q + 1074) /\ (Z.even r = true -> Z.even b = true).
Proof.
  intros Hs Hq Hr Hn Ho b.
  assert (Ev : Z.even r = true -> Z.even b = true).
  { intros E. subst b. rewrite !Z.even_add, !Z.even_mul, E. change (Z.even (2 ^ 31)) with true. change (Z.even (2 ^ 23)) with true.
    rewrite !orb_true_r. reflexivity. }
  assert (F : exists e m, 0 <= e < 255 /\ 0 <= m < 2 ^ 23 /\ (q + 149) * 2 ^ 23 + r = e * 2 ^ 23 + m /\
     (if e =? 0 then m * 2 ^ 925 else (2 ^ 23 + m) * 2 ^ (e + 924)) = r * 2 ^ (q + 1074)).
  { destruct (Z_lt_le_dec r (2 ^ 23)) as [L|L]; [|destruct (Z.eq_dec r (2 ^ 24)) as [->|N]].
    - destruct (Z.eq_dec q (-149)) as [->|Q]; [|specialize (Hn Q); lia].
      exists 0, r. repeat split; try lia.
    - exists (q + 151), 0. repeat split; try lia. replace (q + 151 =? 0) with false by lia.
      replace (q + 151 + 924) with (Z.succ (q + 1074)) by lia. rewrite Z.pow_succ_r by lia. lia.
    - exists (q + 150), (r - 2 ^ 23). repeat split; try lia. replace (q + 150 =? 0) with false by lia.
      replace (q + 150 + 924) with (q + 1074) by lia. f_equal. lia. }
  destruct F as (e & m & He & Hm & Ew & V).
  assert (Eb : b = s * 2 ^ 31 + e * 2 ^ 23 + m) by (subst b; lia).
  destruct (f32_unsplit s e m Hs ltac:(lia) Hm) as (B & S1 & S2 & S3). rewrite <- Eb in *.
  change (f32_sign b) with (s_sign b) in S1. change (f32_exp b) with (s_exp b) in S2. change (f32_man b) with (s_man b) in S3.
  split; [split; [exact B|lia]|]. split; [exact S1|]. split; [|exact Ev].
  unfold f32_mag. rewrite S2, S3. exact V.
Qed.

Lemma f32_mag_nonneg b : 0 <= b < 2 ^ 32 -> 0 <= f32_mag b.
Proof.
  intros H. destruct (f32_split b H) as (_ & _ & He & Hm). unfold f32_mag.
  change (s_exp b) with (f32_exp b). change (s_man b) with (f32_man b).
  destruct (f32_exp b =? 0).
  - pose proof (Z.pow_nonneg 2 925 ltac:(lia)). nia.
  - pose proof (Z.pow_nonneg 2 (f32_exp b + 924) ltac:(lia)). nia.
Qed.
(** A binary32 magnitude is a multiple of the quantum, or smaller than 2^23 of them. *)
Lemma f32_mag_multiple b q : 0 <= b < 2 ^ 32 -> -149 <= q ->
  (exists k, 0 <= k /\ f32_mag b = k * 2 ^ (q + 1074)) \/ (q <> -149 /\ f32_mag b < 2 ^ 23 * 2 ^ (q + 1074)).
Proof.
  intros H Hq. destruct (f32_split b H) as (_ & _ & He & Hm). unfold f32_mag.
  change (s_exp b) with (f32_exp b). change (s_man b) with (f32_man b).
  set (e := f32_exp b) in *. set (m := f32_man b) in *.
  destruct (e =? 0) eqn:E.
  - destruct (Z.eq_dec q (-149)) as [->|N].
    + left. exists m. split; [lia|]. reflexivity.
    + right. split; [exact N|]. replace (q + 1074) with (925 + (q + 149)) by lia. rewrite Z.pow_add_r by lia.
      assert (1 <= 2 ^ (q + 149)) by (apply Z.lt_succ_r; pose proof (Z.pow_pos_nonneg 2 (q + 149)); lia).
      pose proof (Z.pow_pos_nonneg 2 925 ltac:(lia) ltac:(lia)). set (P := 2 ^ 925) in *. nia.
  - destruct (Z_le_gt_dec (q + 1074) (e + 924)) as [L|L].
    + left. exists ((2 ^ 23 + m) * 2 ^ (e + 924 - (q + 1074))). split.
      * pose proof (Z.pow_nonneg 2 (e + 924 - (q + 1074)) ltac:(lia)). nia.
      * rewrite <- Z.mul_assoc, <- Z.pow_add_r by lia. f_equal. f_equal. lia.
    + right. split; [lia|].
      assert (2 * 2 ^ (e + 924) <= 2 ^ (q + 1074)).
      { replace (2 * 2 ^ (e + 924)) with (2 ^ (Z.succ (e + 924))) by (rewrite Z.pow_succ_r; lia). apply Z.pow_le_mono_r; lia. }
      pose proof (Z.pow_pos_nonneg 2 (e + 924) ltac:(lia) ltac:(lia)). nia.
Qed.

Lemma narrow_finite_cases e m : 0 <= e < 2047 -> 0 <= m < 2 ^ 52 -> f64_M e m <> 0 ->
  let M := f64_M e m in let E := f64_E e in let q := f32_quantum M E in let d := q - E in
  narrow_finite e m = (q + 149) * 2 ^ 23 + rne M d /\ 0 <= d /\ -149 <= q /\
  0 <= rne M d <= 2 ^ 24 /\ (q <> -149 -> 2 ^ 23 <= rne M d /\ 2 ^ 23 * 2 ^ d <= M) /\ M < 2 ^ 24 * 2 ^ d /\
  mag64 e m * 1 = M * 2 ^ (E + 1074) /\ 2 ^ (q + 1074) = 2 ^ d * 2 ^ (E + 1074) /\ 0 <= E + 1074 /\ 0 < M.
Proof.
  intros He Hm HM M E q d. pose proof (f64_M_range e m He Hm) as RM. fold M in RM, HM.
  pose proof (quantum_shift e m He Hm HM) as Hd. fold M E in Hd. fold q in Hd. fold d in Hd.
  assert (HE : 0 <= E + 1074) by (subst E; unfold f64_E; destruct (e =? 0) eqn:?; lia).
  assert (Hq : -149 <= q) by (subst q; unfold f32_quantum; lia).
  assert (Mp : 0 < M) by lia.
  pose proof (Z.log2_spec M Mp) as Hl. pose proof (Z.log2_nonneg M) as Hln.
  assert (Ql : Z.log2 M <= d + 23) by (subst d q; unfold f32_quantum; lia).
  assert (Ub : M < 2 ^ 24 * 2 ^ d).
  { rewrite <- Z.pow_add_r by lia. eapply Z.lt_le_trans; [apply Hl|]. apply Z.pow_le_mono_r; lia. }
  pose proof (Z.pow_pos_nonneg 2 d ltac:(lia) ltac:(lia)) as Dp.
  pose proof (rne_bounds M d ltac:(lia)) as Rb.
  assert (Fd : M / 2 ^ d < 2 ^ 24) by (apply Z.div_lt_upper_bound; lia).
  assert (F0 : 0 <= M / 2 ^ d) by (apply Z.div_pos; lia).
  split; [unfold narrow_finite; fold M E; replace (M =? 0) with false by lia; reflexivity|].
  split; [lia|]. split; [exact Hq|]. split; [lia|]. split.
  { intros Q. assert (Ed : Z.log2 M = d + 23) by (subst d q; unfold f32_quantum in *; lia).
    assert (Lb : 2 ^ 23 * 2 ^ d <= M).
    { rewrite <- Z.pow_add_r by lia. replace (23 + d) with (Z.log2 M) by lia. apply Hl. }
    split; [|exact Lb]. assert (2 ^ 23 <= M / 2 ^ d) by (apply Z.div_le_lower_bound; lia). lia. }
  split; [exact Ub|]. split; [unfold mag64; fold M E; lia|].
  split; [rewrite <- Z.pow_add_r by lia; f_equal; lia|]. split; [exact HE|exact Mp].
Qed.

Lemma abs_scale a b c : 0 < c -> Z.abs (a * c - b * c) = Z.abs (a - b) * c.
Proof. intros H. rewrite <- Z.mul_sub_distr_r, Z.abs_mul, (Z.abs_eq c) by lia. reflexivity. Qed.

(** The rounded magnitude, against any other binary32 number. *)
Lemma nearest_mag e m s b' : 0 <= e < 2047 -> 0 <= m < 2 ^ 52 -> 0 <= s < 2 ->
  narrow_finite e m < 255 * 2 ^ 23 ->
  let b := s * 2 ^ 31 + narrow_finite e m in
  f32_finite b /\ s_sign b = s /\
  (0 <= b' < 2 ^ 32 ->
   Z.abs (f32_mag b - mag64 e m) <= Z.abs (f32_mag b' - mag64 e m) /\
   (Z.abs (f32_mag b - mag64 e m) = Z.abs (f32_mag b' - mag64 e m) -> f32_mag b' = f32_mag b \/ Z.even b = true)) /\
  f32_mag b <= 2 * mag64 e m.
Proof.
  intros He Hm Hs Ho b. destruct (Z.eq_dec (f64_M e m) 0) as [Z0|NZ].
  - subst b. unfold mag64. rewrite Z0. replace (narrow_finite e m) with 0 by (unfold narrow_finite; rewrite Z0; reflexivity).
    destruct (f32_mag_word s (-149) 0 Hs ltac:(lia) ltac:(lia) ltac:(lia) ltac:(lia)) as (F & S & V & Ev).
    replace (s * 2 ^ 31 + ((-149 + 149) * 2 ^ 23 + 0)) with (s * 2 ^ 31 + 0) in * by lia.
    set (b := s * 2 ^ 31 + 0) in *. split; [exact F|]. split; [exact S|]. rewrite V. split; [|lia].
    intros Hb'. split; [lia|]. intros E. left. lia.
  - destruct (narrow_finite_cases e m He Hm NZ) as (Ew & Hd & Hq & Hr & Hn & Ub & Em & Eq & HE & Mp).
    set (M := f64_M e m) in *. set (E := f64_E e) in *. set (q := f32_quantum M E) in *. set (d := q - E) in *.
    set (r := rne M d) in *.
    destruct (f32_mag_word s q r Hs Hq Hr (fun H => proj1 (Hn H)) ltac:(lia)) as (F & S & V & Ev).
    rewrite <- Ew in *. fold b in F, S, V, Ev. split; [exact F|]. split; [exact S|].
    assert (EX : mag64 e m = M * 2 ^ (E + 1074)) by lia. rewrite EX, V, Eq.
    pose proof (Z.pow_pos_nonneg 2 (E + 1074) ltac:(lia) HE) as Cp. set (c := 2 ^ (E + 1074)) in *.
    pose proof (Z.pow_pos_nonneg 2 d ltac:(lia) Hd) as Dp. set (D := 2 ^ d) in *.
    rewrite !Z.mul_assoc. split.
    2:{ destruct (rne_spec M d ltac:(lia) Hd 0) as [H _]. fold r D in H. assert (r * D <= 2 * M) by lia. nia. }
    intros Hb'. destruct (f32_mag_multiple b' q Hb' Hq) as [(k & Hk & K)|(Q & L)].
    + rewrite K, Eq, !Z.mul_assoc. fold D c. rewrite !abs_scale by exact Cp.
      destruct (rne_spec M d ltac:(lia) Hd k) as [H1 H2]. fold r D in H1, H2. split; [nia|].
      intros T. destruct H2 as [->|H2]; [|left; reflexivity|right; apply Ev, H2].
      apply Z.mul_cancel_r in T; lia.
    + destruct (Hn Q) as [R L2]. fold D in L2. rewrite Eq in L. fold D c in L.
      destruct (rne_spec M d ltac:(lia) Hd (2 ^ 23)) as [H1 _]. fold r D in H1.
      rewrite abs_scale by exact Cp.
      assert (Z.abs (r * D - M) * c <= (M - 2 ^ 23 * D) * c) by nia.
      assert (2 ^ 23 * D * c <= M * c) by nia.
      split; [lia|]. intros T. exfalso. lia.
Qed.

Lemma f32_finite_range b : f32_finite b -> 0 <= b < 2 ^ 32.
Proof. intros H. apply H. Qed.
Lemma mag64_nonneg e m : 0 <= e < 2047 -> 0 <= m < 2 ^ 52 -> 0 <= mag64 e m.
Proof.
  intros He Hm. unfold mag64. pose proof (f64_M_range e m He Hm).
  pose proof (Z.pow_nonneg 2 (f64_E e + 1074) ltac:(lia)). nia.
Qed.

Lemma round_nearest x : f64_finite x -> f64_too_large x = false -> nearest_even (f64_value x) (f32_of_f64 x).
Proof.
  intros Hf Ht. pose proof (f64_bits_range x) as Hb. destruct (f64_split _ Hb) as (_ & Hs & He & Hm).
  unfold f64_finite in Hf. change (d_exp x) with (f64_exp (f64_bits x)) in Hf.
  unfold f64_too_large, narrow_overflows in Ht. replace (f64_exp (f64_bits x) =? 2047) with false in Ht by lia.
  cbn [negb andb] in Ht. unfold f32_inf in Ht.
  assert (Ew : f32_of_f64 x = f64_sign (f64_bits x) * 2 ^ 31 + narrow_finite (f64_exp (f64_bits x)) (f64_man (f64_bits x))).
  { unfold f32_of_f64, narrow, narrow_mag, f32_inf. replace (f64_exp (f64_bits x) =? 2047) with false by lia. lia. }
  unfold nearest_even, f64_value. rewrite f64_mag_eq. change (d_sign x) with (f64_sign (f64_bits x)). rewrite Ew.
  set (e := f64_exp (f64_bits x)) in *. set (m := f64_man (f64_bits x)) in *. set (s := f64_sign (f64_bits x)) in *.
  set (b := s * 2 ^ 31 + narrow_finite e m).
  pose proof (mag64_nonneg e m ltac:(lia) Hm) as Xn.
  destruct (nearest_mag e m s 0 ltac:(lia) Hm Hs ltac:(lia)) as (F & S & _ & B2). fold b in F, S, B2.
  split; [exact F|]. intros b' F'. destruct (nearest_mag e m s b' ltac:(lia) Hm Hs ltac:(lia)) as (_ & _ & N & _).
  fold b in N. specialize (N (f32_finite_range b' F')).
  destruct (nearest_mag e m s 0 ltac:(lia) Hm Hs ltac:(lia)) as (_ & _ & N0 & _). fold b in N0. specialize (N0 ltac:(lia)).
  change (f32_mag 0) with 0 in N0.
  pose proof (f32_mag_nonneg b' (f32_finite_range b' F')) as Vn'. pose proof (f32_mag_nonneg b (f32_finite_range b F)) as Vn.
  unfold f32_value. rewrite S. set (X := mag64 e m) in *. set (V := f32_mag b) in *. set (V' := f32_mag b') in *.
  destruct N as [N1 N2]. destruct N0 as [N3 N4]. clearbody X V V'. clear -N1 N2 N3 N4 Xn Vn' Vn Hs.
  assert (Ss : s = 0 \/ s = 1) by lia.
  destruct Ss as [-> | ->]; [change (0 =? 0) with true|change (1 =? 0) with false]; cbv iota;
    destruct (s_sign b' =? 0); (split; [lia|]); intros T;
    (destruct (Z.eq_dec V' 0) as [->|]; [|try (exfalso; lia)]); (destruct N2 as [|]; [lia|left; lia|auto]).
Qed.

(** Overflow threshold: 2^128 - 2^103. *)
Lemma too_large_iff x : f64_too_large x = true <->
  f64_finite x /\ (2 ^ 128 - 2 ^ 103) * 2 ^ 1074 <= Z.abs (f64_value x).
Proof.
  pose proof (f64_bits_range x) as Hb. destruct (f64_split _ Hb) as (_ & Hs & He & Hm).
  unfold f64_finite. change (d_exp x) with (f64_exp (f64_bits x)).
  unfold f64_too_large, narrow_overflows, f32_inf.
  assert (EV : f64_exp (f64_bits x) <> 2047 -> Z.abs (f64_value x) = mag64 (f64_exp (f64_bits x)) (f64_man (f64_bits x))).
  { intros N. pose proof (mag64_nonneg (f64_exp (f64_bits x)) (f64_man (f64_bits x)) ltac:(lia) Hm).
    unfold f64_value. rewrite f64_mag_eq. destruct (d_sign x =? 0); lia. }
  set (e := f64_exp (f64_bits x)) in *. set (m := f64_man (f64_bits x)) in *.
  destruct (e =? 2047) eqn:Ef; [cbn [negb andb]; split; [discriminate|intros []; lia]|].
  cbn [negb andb]. assert (Hne : e <> 2047) by lia. rewrite (EV Hne). clear EV.
  assert (K : 255 * 2 ^ 23 <= narrow_finite e m <-> (2 ^ 128 - 2 ^ 103) * 2 ^ 1074 <= mag64 e m).
  { destruct (Z.eq_dec (f64_M e m) 0) as [Z0|NZ].
    - unfold mag64, narrow_finite. rewrite Z0. change (0 =? 0) with true. cbv iota.
      pose proof (Z.pow_pos_nonneg 2 1074 ltac:(lia) ltac:(lia)). split; [lia|]. intros H'. exfalso. nia.
    - destruct (narrow_finite_cases e m ltac:(lia) Hm NZ) as (Ew & Hd & Hq & Hr & Hn & Ub & Em & Eq & HE & Mp).
      set (M := f64_M e m) in *. set (E := f64_E e) in *. set (q := f32_quantum M E) in *. set (d := q - E) in *.
      set (r := rne M d) in *. rewrite Ew. replace (mag64 e m) with (M * 2 ^ (E + 1074)) by lia.
      pose proof (Z.pow_pos_nonneg 2 (E + 1074) ltac:(lia) HE) as Cp. set (c := 2 ^ (E + 1074)) in *.
      pose proof (Z.pow_pos_nonneg 2 d ltac:(lia) Hd) as Dp. set (D := 2 ^ d) in *.
      destruct (Z.eq_dec q 104) as [Q|Q]; [|destruct (Z_lt_le_dec q 104) as [L|L]].
      + rewrite Q. pose proof (rne_le_iff M d (2 ^ 24) ltac:(lia) Hd eq_refl) as T. fold r D in T.
        assert (P : (2 ^ 128 - 2 ^ 103) * 2 ^ 1074 = (2 ^ 25 - 1) * 2 ^ 103 * 2 ^ 1074) by (f_equal; lia). rewrite P.
        rewrite Q in Eq. assert (P2 : 2 * (2 ^ 103 * 2 ^ 1074) = D * c) by (rewrite <- Eq; vm_compute; reflexivity).
        rewrite <- Z.mul_assoc. set (Y := 2 ^ 103 * 2 ^ 1074) in *. clearbody Y.
        split; intros H.
        * assert (A : 2 ^ 24 <= r) by lia. apply T in A. apply (Z.mul_le_mono_nonneg_r _ _ c) in A; lia.
        * assert (A : (2 * 2 ^ 24 - 1) * D <= 2 * M) by (apply (Z.mul_le_mono_pos_r _ _ c); lia). apply T in A. lia.
      + assert (H1 : (q + 149) * 2 ^ 23 + r < 255 * 2 ^ 23) by lia.
        assert (H2 : M * c < (2 ^ 128 - 2 ^ 103) * 2 ^ 1074).
        { assert (A : M * c < 2 ^ 24 * D * c) by nia. rewrite <- Z.mul_assoc, <- Eq in A.
          assert (B : 2 ^ (q + 1074) <= 2 ^ (103 + 1074)) by (apply Z.pow_le_mono_r; lia).
          rewrite (Z.pow_add_r 2 103 1074) in B by lia. pose proof (Z.pow_pos_nonneg 2 1074 ltac:(lia) ltac:(lia)).
          set (Y := 2 ^ 1074) in *. clearbody Y. set (W := 2 ^ (q + 1074)) in *. clearbody W.
          assert (2 ^ 24 * W <= 2 ^ 127 * Y) by lia. assert (2 ^ 127 * Y <= (2 ^ 128 - 2 ^ 103) * Y) by nia. lia. }
        lia.
      + destruct (Hn ltac:(lia)) as [R L2]. fold D in L2.
        assert (H1 : 255 * 2 ^ 23 <= (q + 149) * 2 ^ 23 + r) by lia.
        assert (H2 : (2 ^ 128 - 2 ^ 103) * 2 ^ 1074 <= M * c).
        { assert (A : 2 ^ 23 * (D * c) <= M * c) by nia. rewrite <- Eq in A.
          assert (B : 2 ^ (105 + 1074) <= 2 ^ (q + 1074)) by (apply Z.pow_le_mono_r; lia).
          rewrite (Z.pow_add_r 2 105 1074) in B by lia. pose proof (Z.pow_pos_nonneg 2 1074 ltac:(lia) ltac:(lia)).
          set (Y := 2 ^ 1074) in *. clearbody Y. set (W := 2 ^ (q + 1074)) in *. clearbody W. nia. }
        lia. }
  rewrite Z.leb_le. tauto.
Qed.

(** ** Widening keeps the number *)
Lemma f64_value_of_fields x s e m : 0 <= s < 2 -> 0 <= e < 2048 -> 0 <= m < 2 ^ 52 ->
  f64_bits x = s * 2 ^ 63 + (e * 2 ^ 52 + m) -> d_sign x = s /\ d_exp x = e /\ d_man x = m.
Proof.
  intros Hs He Hm E. destruct (f64_unsplit s e m Hs He Hm) as (_ & A & B & C). rewrite <- E in *. auto.
Qed.
Lemma widen_value b : f32_finite b ->
  f64_finite (f64_of_f32 b) /\ d_sign (f64_of_f32 b) = s_sign b /\ f64_value (f64_of_f32 b) = f32_value b.
Proof.
  intros [Hb Hf]. destruct (f32_split b Hb) as (_ & Hs & He & Hm).
  change (s_exp b) with (f32_exp b) in Hf.
  assert (F : exists e m, widen_mag (f32_exp b) (f32_man b) = e * 2 ^ 52 + m /\ 0 <= e < 2047 /\ 0 <= m < 2 ^ 52 /\
    (if e =? 0 then m else (2 ^ 52 + m) * 2 ^ (e - 1)) = f32_mag b).
  { unfold f32_mag, widen_mag. change (s_exp b) with (f32_exp b). change (s_man b) with (f32_man b).
    set (e := f32_exp b) in *. set (m := f32_man b) in *. replace (e =? 255) with false by lia.
    destruct (e =? 0) eqn:E0.
    - destruct (m =? 0) eqn:M0; [exists 0, 0; replace m with 0 by lia; repeat split; lia|].
      assert (Mp : 0 < m) by lia. pose proof (Z.log2_spec m Mp) as Hl. pose proof (Z.log2_nonneg m) as Hn.
      assert (Lb : Z.log2 m < 23) by (apply Z.log2_lt_pow2; lia). set (l := Z.log2 m) in *.
      rewrite Z.pow_succ_r in Hl by lia.
      assert (P : 2 ^ l * 2 ^ (52 - l) = 2 ^ 52) by (rewrite <- Z.pow_add_r by lia; f_equal; lia).
      exists (l + 874), ((m - 2 ^ l) * 2 ^ (52 - l)). split; [reflexivity|]. split; [lia|].
      pose proof (Z.pow_pos_nonneg 2 (52 - l) ltac:(lia) ltac:(lia)) as Pp.
      split; [split; [nia|]; rewrite <- P; apply Z.mul_lt_mono_pos_r; lia|].
      replace (l + 874 =? 0) with false by lia. rewrite <- P.
      replace (2 ^ l * 2 ^ (52 - l) + (m - 2 ^ l) * 2 ^ (52 - l)) with (m * 2 ^ (52 - l)) by lia.
      rewrite <- Z.mul_assoc, <- Z.pow_add_r by lia. f_equal. f_equal. lia.
    - exists (e + 896), (m * 2 ^ 29). split; [reflexivity|]. split; [lia|]. split; [lia|].
      replace (e + 896 =? 0) with false by lia.
      replace (2 ^ 52 + m * 2 ^ 29) with ((2 ^ 23 + m) * 2 ^ 29) by lia.
      rewrite <- Z.mul_assoc, <- Z.pow_add_r by lia. f_equal. f_equal. lia. }
  destruct F as (e & m & Ew & Re & Rm & V).
  assert (Eb : f64_bits (f64_of_f32 b) = f32_sign b * 2 ^ 63 + (e * 2 ^ 52 + m)).
  { rewrite f64_bits_of_f32 by exact Hb. unfold widen. rewrite Ew. reflexivity. }
  destruct (f64_value_of_fields _ _ e m Hs ltac:(lia) Rm Eb) as (A & B & C).
  split; [unfold f64_finite; lia|]. split; [exact A|].
  unfold f64_value, f32_value, f64_mag. rewrite A, B, C, V. reflexivity.
Qed.

(** A finite binary64 pattern is determined by its sign and its value. *)
Lemma mag64_lt e m e' m' : 0 <= e -> e < e' -> 0 <= m < 2 ^ 52 -> 0 <= m' < 2 ^ 52 ->
  (if e =? 0 then m else (2 ^ 52 + m) * 2 ^ (e - 1)) < (if e' =? 0 then m' else (2 ^ 52 + m') * 2 ^ (e' - 1)).
Proof.
  intros He Hl Hm Hm'. replace (e' =? 0) with false by lia. destruct (e =? 0) eqn:E.
  - pose proof (Z.pow_pos_nonneg 2 (e' - 1) ltac:(lia) ltac:(lia)). nia.
  - assert (2 * 2 ^ (e - 1) <= 2 ^ (e' - 1)).
    { replace (2 * 2 ^ (e - 1)) with (2 ^ e) by (rewrite <- Z.pow_succ_r by lia; f_equal; lia). apply Z.pow_le_mono_r; lia. }
    pose proof (Z.pow_pos_nonneg 2 (e - 1) ltac:(lia) ltac:(lia)). nia.
Qed.
Lemma f64_value_inj x y : f64_finite x -> f64_finite y -> d_sign x = d_sign y -> f64_value x = f64_value y -> x = y.
Proof.
  unfold f64_finite. intros Fx Fy Es Ev. apply f64_bits_inj.
  destruct (f64_split _ (f64_bits_range x)) as (Bx & Sx & Ex & Mx). destruct (f64_split _ (f64_bits_range y)) as (By & Sy & Ey & My).
  assert (Em : f64_mag x = f64_mag y) by (unfold f64_value in Ev; rewrite Es in Ev; destruct (d_sign y =? 0); lia).
  unfold f64_mag in Em.
  change (d_sign x) with (f64_sign (f64_bits x)) in *. change (d_sign y) with (f64_sign (f64_bits y)) in *.
  change (d_exp x) with (f64_exp (f64_bits x)) in *. change (d_exp y) with (f64_exp (f64_bits y)) in *.
  change (d_man x) with (f64_man (f64_bits x)) in *. change (d_man y) with (f64_man (f64_bits y)) in *.
  set (ex := f64_exp (f64_bits x)) in *. set (ey := f64_exp (f64_bits y)) in *.
  set (mx := f64_man (f64_bits x)) in *. set (my := f64_man (f64_bits y)) in *.
  destruct (Z.lt_trichotomy ex ey) as [L|[L|L]].
  - pose proof (mag64_lt ex mx ey my ltac:(lia) L Mx My). lia.
  - rewrite L in *. assert (mx = my).
    { destruct (ey =? 0) eqn:E; [exact Em|]. pose proof (Z.pow_pos_nonneg 2 (ey - 1) ltac:(lia) ltac:(lia)).
      apply Z.mul_cancel_r in Em; lia. }
    rewrite Bx, By, Es. lia.
  - pose proof (mag64_lt ey my ex mx ltac:(lia) L My Mx). lia.
Qed.

(** A finite Python float is kept iff its number is a binary32 number. *)
Lemma exact_iff_value x : f64_finite x ->
  (f32_exact x = true <-> exists b, f32_finite b /\ f32_value b = f64_value x).
Proof.
  intros F. split.
  - intros H. pose proof (f32_exact_fits x H) as T. destruct (round_nearest x F T) as [Fb _].
    exists (f32_of_f64 x). split; [exact Fb|]. destruct (widen_value _ Fb) as (_ & _ & V). rewrite <- V.
    rewrite (f64_of_f32_of_f64 x H). reflexivity.
  - intros (b & Fb & V).
    assert (T : f64_too_large x = false).
    { destruct (f64_too_large x) eqn:E; [|reflexivity]. apply too_large_iff in E. destruct E as [_ E]. exfalso.
      rewrite <- V in E. destruct Fb as [Rb Eb]. destruct (f32_split b Rb) as (_ & _ & He & Hm).
      assert (A : Z.abs (f32_value b) = f32_mag b).
      { pose proof (f32_mag_nonneg b Rb). unfold f32_value. destruct (s_sign b =? 0); lia. }
      rewrite A in E. unfold f32_mag in E. change (s_exp b) with (f32_exp b) in *. change (s_man b) with (f32_man b) in *.
      pose proof (Z.pow_pos_nonneg 2 925 ltac:(lia) ltac:(lia)) as P925.
      replace (2 ^ 1074) with (2 ^ 149 * 2 ^ 925) in E by (rewrite <- Z.pow_add_r by lia; reflexivity).
      destruct (f32_exp b =? 0) eqn:E0.
      - set (Y := 2 ^ 925) in *. clearbody Y. nia.
      - assert (U : 2 ^ (f32_exp b + 924) <= 2 ^ 253 * 2 ^ 925) by (rewrite <- Z.pow_add_r by lia; apply Z.pow_le_mono_r; lia).
        set (Y := 2 ^ 925) in *. clearbody Y. set (W := 2 ^ (f32_exp b + 924)) in *. clearbody W. nia. }
    destruct (round_nearest x F T) as [Fn N]. specialize (N b Fb). destruct N as [N _].
    assert (E : f32_value (f32_of_f64 x) = f64_value x) by lia.
    apply f32_exact_eq. destruct (widen_value _ Fn) as (Fw & Sw & Vw). apply f64_value_inj; [exact Fw|exact F| |congruence].
    rewrite Sw. destruct (f64_split _ (f64_bits_range x)) as (_ & Hs & He & Hm).
    unfold f64_finite in F. change (d_exp x) with (f64_exp (f64_bits x)) in F.
    assert (Ew : f32_of_f64 x = f64_sign (f64_bits x) * 2 ^ 31 + narrow_finite (f64_exp (f64_bits x)) (f64_man (f64_bits x))).
    { unfold f64_too_large, narrow_overflows in T. replace (f64_exp (f64_bits x) =? 2047) with false in T by lia.
      unfold f32_of_f64, narrow, narrow_mag. replace (f64_exp (f64_bits x) =? 2047) with false by lia.
      cbn [negb andb] in T. lia. }
    rewrite Ew. apply (nearest_mag _ _ _ 0); try lia.
    unfold f64_too_large, narrow_overflows, f32_inf in T. replace (f64_exp (f64_bits x) =? 2047) with false in T by lia.
    cbn [negb andb] in T. lia.
Qed.
