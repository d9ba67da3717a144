(** * C09-C16, C36, C37: the primitive codecs. *)
From Verif Require Import Base PyInt PyFloat PyStr PyStruct DataTypes Versions Common Wire FloatSpec FloatP.
From Verif Require Import Codec CodecP CodecF M_Task M_Unit P_DatFile.
From Coq Require Import String Ascii ZifyBool.
Open Scope Z_scope.
Local Open Scope list_scope.
Local Notation length := List.length.

Lemma Ok_inj {A} (a b : A) : Ok a = Ok b -> b = a.
Proof. congruence. Qed.

(** ** C09: integers *)
(** The numbers an [n]-byte integer can hold. *)
Definition holds (n : nat) (signed : bool) (z : Z) : Prop :=
  if signed then - 2 ^ (8 * Z.of_nat n) <= 2 * z < 2 ^ (8 * Z.of_nat n) else 0 <= z < 2 ^ (8 * Z.of_nat n).
Lemma word_pow n : word n = 2 ^ (8 * Z.of_nat n).
Proof. unfold word. change 256 with (2 ^ 8). rewrite <- Z.pow_mul_r by lia. reflexivity. Qed.
Lemma holds_fits n s z : holds n s z <-> int_fits n s z = true.
Proof. unfold holds, int_fits. rewrite word_pow. destruct s; lia. Qed.
Theorem C09_encode : forall n s z,
  (holds n s z -> Int_to_bytes z n s = Ok (little_endian n z) /\ length (little_endian n z) = n) /\
  (~ holds n s z -> Int_to_bytes z n s = Err OverflowError).
Proof.
  intros n s z. rewrite holds_fits. unfold Int_to_bytes, int_to_bytes. rewrite little_endian_le_bytes, le_bytes_length.
  destruct (int_fits n s z); split; intros H; try congruence. split; reflexivity.
Qed.
Theorem C09_decode : forall n s z bs, Int_to_bytes z n s = Ok bs -> Int_from_bytes bs s = z.
Proof.
  intros n s z bs. unfold Int_to_bytes, int_to_bytes. destruct (int_fits n s z) eqn:E; [|discriminate].
  intros [= <-]. apply int_roundtrip, E.
Qed.
Theorem C09_reencode : forall bs s,
  holds (length bs) s (Int_from_bytes bs s) /\ Int_to_bytes (Int_from_bytes bs s) (length bs) s = Ok bs.
Proof.
  intros bs s. rewrite holds_fits. unfold Int_to_bytes, int_to_bytes, Int_from_bytes. rewrite int_from_bytes_fits.
  split; [reflexivity|]. f_equal. apply le_bytes_int_from_bytes.
Qed.
(** What is read is the two's complement value of the bytes: congruent to [sum bs[i] * 256^i],
    and in range. *)
Fixpoint positional (i : nat) (bs : bytes) : Z :=
  match bs with [] => 0 | b :: r => byte_val b * 256 ^ Z.of_nat i + positional (S i) r end.
Theorem C09_value : forall bs s, exists k,
  Int_from_bytes bs s = positional 0 bs + k * 2 ^ (8 * Z.of_nat (length bs)) /\ (s = false -> k = 0).
Proof.
  assert (P : forall bs i, positional i bs = le_value bs * 256 ^ Z.of_nat i).
  { induction bs as [|b r IH]; intros i; cbn; [lia|]. rewrite IH, Nat2Z.inj_succ, Z.pow_succ_r by lia. lia. }
  intros bs s. rewrite P. change (256 ^ Z.of_nat 0) with 1. rewrite <- word_pow. unfold Int_from_bytes, int_from_bytes. destruct s.
  - destruct (word (length bs) <=? 2 * le_value bs); [exists (-1)|exists 0]; split; try lia; discriminate.
  - exists 0. split; [lia|reflexivity].
Qed.
Print Assumptions C09_encode. Print Assumptions C09_decode. Print Assumptions C09_reencode. Print Assumptions C09_value.
Example C09_case : Int_to_bytes (-2) 2 true = Ok [byte_of 254; byte_of 255] /\ Int_to_bytes 32768 2 true = Err OverflowError.
Proof. split; vm_compute; reflexivity. Qed.

(** ** C10: text *)
(** UTF-8 (RFC 3629) of one code point. *)
Definition scalars (s : pystr) : Prop := Forall (fun c => 0 <= c <= 1114111 /\ ~ (55296 <= c <= 57343)) s.
Lemma scalars_spec s : scalars s <-> forallb scalar s = true.
Proof.
  unfold scalars. rewrite forallb_forall, Forall_forall. split; intros H c Hc; specialize (H c Hc);
    unfold scalar, surrogate in *; lia.
Qed.
Theorem C10_encode_decode : forall s,
  (scalars s -> exists bs, str_encode s = Ok bs /\ bytes_decode bs = Ok s) /\
  (~ scalars s -> str_encode s = Err UnicodeEncodeError).
Proof.
  intros s. rewrite scalars_spec. unfold str_encode, bytes_decode. destruct (forallb scalar s) eqn:E; split; intros H; try congruence.
  exists (utf8 s). rewrite (utf8_decode_encode s E). auto.
Qed.
Theorem C10_decode_encode : forall bs,
  bytes_decode bs = Err UnicodeDecodeError \/
  exists s, bytes_decode bs = Ok s /\ scalars s /\ str_encode s = Ok bs.
Proof.
  intros bs. unfold bytes_decode. destruct (utf8_decode bs) as [s|] eqn:E; [|left; reflexivity]. right. exists s.
  destruct (utf8_encode_decode bs s E) as [S U]. rewrite scalars_spec. unfold str_encode. rewrite S, U. auto.
Qed.
(** The encoded size of a character: 1 to 4 bytes, by range. *)
Theorem C10_sizes : forall s bs, str_encode s = Ok bs ->
  length bs = fold_right (fun c n => ((if (c <? 128)%Z then 1 else if (c <? 2048)%Z then 2 else if (c <? 65536)%Z then 3 else 4) + n)%nat) 0%nat s.
Proof.
  intros s bs. unfold str_encode. destruct (forallb scalar s); [|discriminate]. intros [= <-]. unfold utf8.
  induction s as [|c s IH]; [reflexivity|]. cbn [flat_map fold_right]. rewrite app_length, IH.
  unfold utf8_char. destruct (c <? 128), (c <? 2048), (c <? 65536); cbn [length]; lia.
Qed.
(** The bytes are those of UTF-8 (RFC 3629, section 3): one byte below 128, or a leading byte that
    tells the number of bytes and 6 more bits in each following byte of 128..191. *)
Definition utf8_value (bs : list Z) : option Z :=
  let follows b := (128 <=? b) && (b <=? 191) in
  match bs with
  | [a] => if (0 <=? a) && (a <=? 127) then Some a else None
  | [a; b] => if (192 <=? a) && (a <=? 223) && follows b then Some ((a - 192) * 64 + (b - 128)) else None
  | [a; b; c] => if (224 <=? a) && (a <=? 239) && follows b && follows c
                 then Some ((a - 224) * 4096 + (b - 128) * 64 + (c - 128)) else None
  | [a; b; c; d] => if (240 <=? a) && (a <=? 247) && follows b && follows c && follows d
                    then Some ((a - 240) * 262144 + (b - 128) * 4096 + (c - 128) * 64 + (d - 128)) else None
  | _ => None
  end.
Theorem C10_utf8 : forall c bs, str_encode [c] = Ok bs -> utf8_value (map byte_val bs) = Some c.
Proof.
  intros c bs. unfold str_encode. destruct (forallb scalar [c]) eqn:S; [|discriminate]. intros [= <-].
  cbn [forallb] in S. rewrite andb_true_r in S. unfold scalar in S. apply andb_prop in S as [R _]. apply andb_prop in R as [R1 R2].
  unfold utf8. cbn [flat_map]. rewrite app_nil_r. unfold utf8_char.
  pose proof (Z.div_mod c 64 ltac:(lia)) as D1. pose proof (Z.mod_pos_bound c 64 ltac:(lia)) as M1.
  pose proof (Z.div_mod (c / 64) 64 ltac:(lia)) as D2. pose proof (Z.mod_pos_bound (c / 64) 64 ltac:(lia)) as M2.
  pose proof (Z.div_mod (c / 4096) 64 ltac:(lia)) as D3. pose proof (Z.mod_pos_bound (c / 4096) 64 ltac:(lia)) as M3.
  assert (E1 : c / 4096 = c / 64 / 64) by (rewrite Z.div_div by lia; reflexivity).
  assert (E2 : c / 262144 = c / 4096 / 64) by (rewrite Z.div_div by lia; reflexivity).
  assert (P : 0 <= c / 64 /\ 0 <= c / 4096 /\ 0 <= c / 262144) by (repeat split; apply Z.div_pos; lia).
  assert (B : forall z, 0 <= z < 256 -> byte_val (byte_of z) = z) by (intros z Hz; rewrite byte_val_of; apply Z.mod_small, Hz).
  destruct (c <? 128) eqn:A1; [|destruct (c <? 2048) eqn:A2; [|destruct (c <? 65536) eqn:A3]]; cbn [map utf8_value]; rewrite ?B by lia;
    match goal with |- (if ?t then _ else _) = _ => replace t with true by (symmetry; rewrite ?andb_true_iff, ?Z.leb_le; lia) end; f_equal; lia.
Qed.
(** A text is encoded character by character. *)
Theorem C10_append : forall s t bs cs, str_encode s = Ok bs -> str_encode t = Ok cs -> str_encode (s ++ t) = Ok (bs ++ cs).
Proof.
  intros s t bs cs. unfold str_encode. rewrite forallb_app. destruct (forallb scalar s), (forallb scalar t); try discriminate.
  intros [= <-] [= <-]. unfold utf8. rewrite flat_map_app. reflexivity.
Qed.
Print Assumptions C10_utf8. Print Assumptions C10_append.
Print Assumptions C10_encode_decode. Print Assumptions C10_decode_encode. Print Assumptions C10_sizes.
Example C10_case : str_encode [97; 233; 8364; 128512] =
  Ok (map byte_of [97; 195; 169; 226; 130; 172; 240; 159; 152; 128]) /\ str_encode [55296] = Err UnicodeEncodeError
  /\ bytes_decode (map byte_of [192; 128]) = Err UnicodeDecodeError.
Proof. repeat split; vm_compute; reflexivity. Qed.

(** ** C11: debug strings *)
Definition ends_with_nul (s : pystr) : Prop := exists p, s = p ++ [0].
Lemma no_trailing_nul_spec s : no_trailing_nul s = true <-> ~ ends_with_nul s.
Proof.
  unfold no_trailing_nul, ends_with_nul. destruct s as [|c s] using rev_ind.
  - cbn. split; [|reflexivity]. intros _ [p H]. destruct p; discriminate.
  - rewrite last_last. split.
    + intros H [p E]. apply app_inj_tail in E. destruct E as [_ ->]. discriminate.
    + intros H. destruct (Z.eqb_spec c 0) as [->|]; [exfalso; apply H; eauto|reflexivity].
Qed.
Theorem C11_write : forall s enc, str_encode s = Ok enc ->
  (Z.of_nat (length enc) <= 65535 ->
     write_debug_string s = Ok ([byte_of 96; byte_of 10] ++ little_endian 2 (Z.of_nat (length enc)) ++ enc)) /\
  (65535 < Z.of_nat (length enc) -> write_debug_string s = Err OverflowError).
Proof.
  intros s enc E. pose proof (Lay_text s) as L. unfold write_debug_string in *. rewrite E in *. cbn [rbind] in *.
  unfold str_encode in E. destruct (forallb scalar s) eqn:S; [|discriminate]. injection E as <-.
  unfold write_int_16, Int_to_bytes, int_to_bytes in *. cbn [negb] in *. change (int_fits 2 false 2656) with true in *. cbv iota in *.
  unfold len in *. rewrite <- fits_u16 in *. split; intros H.
  - rewrite (proj2 (within_spec 0 _ 65535)) in * by lia. cbn [wapp rbind] in *. rewrite little_endian_le_bytes. reflexivity.
  - destruct (within 0 (Z.of_nat (length (utf8 s))) 65535) eqn:W; [apply within_spec in W; lia|]. reflexivity.
Qed.
Theorem C11_write_bad_text : forall s e, str_encode s = Err e -> write_debug_string s = Err e.
Proof. intros s e E. unfold write_debug_string. rewrite E. reflexivity. Qed.
(** Reading back what was written, anywhere: the text without its trailing NUL characters. *)
Definition strip_nul (s t : pystr) : Prop := exists k, s = t ++ repeat 0 k /\ ~ ends_with_nul t.
Lemma strip_nul_exists s : exists t, strip_nul s t.
Proof.
  unfold strip_nul. induction s as [|c s (t & k & E & N)] using rev_ind.
  - exists [], 0%nat. split; [reflexivity|]. intros [[|] H]; discriminate.
  - destruct (Z.eq_dec c 0) as [->|Hc].
    + exists t, (S k). split; [|exact N]. rewrite E, <- app_assoc. f_equal. cbn. symmetry. rewrite repeat_cons. reflexivity.
    + exists (s ++ [c]), 0%nat. cbn. rewrite app_nil_r. split; [reflexivity|]. intros [p H]. apply app_inj_tail in H. tauto.
Qed.
Lemma String_from_bytes_strip s t : forallb scalar s = true -> strip_nul s t -> String_from_bytes (utf8 s) = Ok t.
Proof.
  intros S (k & E & N). unfold String_from_bytes, bytes_decode.
  assert (Z : utf8 (repeat 0 k) = repeat (byte_of 0) k) by (clear; induction k as [|k IH]; [reflexivity|]; change (utf8_char 0 ++ utf8 (repeat 0 k) = byte_of 0 :: repeat (byte_of 0) k); rewrite IH; reflexivity).
  rewrite E, utf8_app, Z, rstrip0_zeros.
  assert (St : forallb scalar t = true) by (rewrite E, forallb_app in S; apply andb_true_iff in S; tauto).
  rewrite rstrip0_id by (apply no_trailing_nul_utf8; [exact St|apply no_trailing_nul_spec, N]).
  rewrite (utf8_decode_encode t St). reflexivity.
Qed.
Lemma slice_exact pre (a post : bytes) n : length a = n -> slice (pre ++ a ++ post) (length pre) n = a.
Proof.
  intros <-. unfold slice. rewrite skipn_app, skipn_all, Nat.sub_diag. cbn. rewrite firstn_app, Nat.sub_diag, firstn_all.
  cbn. apply app_nil_r.
Qed.
Theorem C11_read_written : forall s t bs, write_debug_string s = Ok bs -> strip_nul s t ->
  forall pre post v ls, exists ls',
    read_debug_string (mkHandler (pre ++ bs ++ post) (length pre) v ls)
    = Ok (t, mkHandler (pre ++ bs ++ post) (length pre + length bs) v ls').
Proof.
  intros s t bs W St pre post v ls. unfold write_debug_string, str_encode in W.
  destruct (forallb scalar s) eqn:S; [|discriminate]. cbn [rbind] in W.
  unfold write_int_16, Int_to_bytes, int_to_bytes in W. cbn [negb] in W. change (int_fits 2 false 2656) with true in W. cbv iota in W.
  unfold len in W. destruct (int_fits 2 false (Z.of_nat (length (utf8 s)))) eqn:F; [|discriminate].
  cbn [wapp rbind] in W. set (n := Z.of_nat (length (utf8 s))) in *.
  assert (Ebs : bs = le_bytes 2 2656 ++ le_bytes 2 n ++ utf8 s) by (clear -W; congruence). rewrite Ebs. clear W Ebs bs.
  unfold read_debug_string, read_int_16, consume_range, consume_slice, bind, ret, note, lift. cbn [h_content h_offset h_version h_losses].
  replace (pre ++ (le_bytes 2 2656 ++ le_bytes 2 n ++ utf8 s) ++ post) with (pre ++ le_bytes 2 2656 ++ le_bytes 2 n ++ utf8 s ++ post)
    by (rewrite <- !app_assoc; reflexivity).
  assert (S1 : slice (pre ++ le_bytes 2 2656 ++ le_bytes 2 n ++ utf8 s ++ post) (length pre) 2 = le_bytes 2 2656)
    by (apply slice_exact; apply le_bytes_length).
  assert (S2 : slice (pre ++ le_bytes 2 2656 ++ le_bytes 2 n ++ utf8 s ++ post) (length pre + 2) 2 = le_bytes 2 n).
  { rewrite app_assoc. replace (length pre + 2)%nat with (length (pre ++ le_bytes 2 2656)) by (rewrite app_length, le_bytes_length; reflexivity).
    apply slice_exact. apply le_bytes_length. }
  assert (S3 : slice (pre ++ le_bytes 2 2656 ++ le_bytes 2 n ++ utf8 s ++ post) (length pre + 2 + 2) (Z.to_nat n) = utf8 s).
  { rewrite !app_assoc. rewrite <- (app_assoc _ (utf8 s)).
    replace (length pre + 2 + 2)%nat with (length ((pre ++ le_bytes 2 2656) ++ le_bytes 2 n)) by (rewrite !app_length, !le_bytes_length; reflexivity).
    apply slice_exact. subst n. rewrite Nat2Z.id. reflexivity. }
  rewrite S1, !le_bytes_length. change (Nat.ltb 2 2) with false; cbn [h_content h_offset h_version h_losses].
  unfold Int_from_bytes. rewrite (int_roundtrip 2 false 2656) by reflexivity. change (2656 =? 2656) with true. cbn [py_assert h_content h_offset h_version h_losses].
  rewrite S2, !le_bytes_length. change (Nat.ltb 2 2) with false; cbn [h_content h_offset h_version h_losses]. rewrite (int_roundtrip 2 false n F).
  rewrite S3. replace (Nat.ltb (length (utf8 s)) (Z.to_nat n)) with false
    by (symmetry; apply Nat.ltb_ge; subst n; rewrite Nat2Z.id; reflexivity).
  cbn [h_content h_offset h_version h_losses]. rewrite (String_from_bytes_strip s t S St).
  replace (length pre + 2 + 2 + Z.to_nat n)%nat
    with (length pre + length (le_bytes 2 2656 ++ le_bytes 2 n ++ utf8 s))%nat
    by (subst n; rewrite !app_length, !le_bytes_length, Nat2Z.id; lia).
  destruct (ends_in_nul (utf8 s)); eexists; reflexivity.
Qed.
(** Any other marker is refused. *)
Theorem C11_marker : forall h, slice (h_content h) (h_offset h) 2 <> [byte_of 96; byte_of 10] ->
  read_debug_string h = Err AssertionError.
Proof.
  intros h N. unfold read_debug_string, read_int_16, consume_range, consume_slice, bind, ret, note, lift.
  cbn [h_content h_offset h_version h_losses]. set (bs := slice (h_content h) (h_offset h) 2) in *.
  destruct (Z.eqb_spec (Int_from_bytes bs false) 2656) as [E|E]; [|reflexivity]. exfalso. apply N.
  pose proof (le_bytes_int_from_bytes bs false) as R. unfold Int_from_bytes in E. rewrite E in R.
  assert (L : (length bs <= 2)%nat) by (subst bs; unfold slice; rewrite firstn_length; lia).
  pose proof (le_value_range bs) as V. unfold int_from_bytes in E. rewrite E in V.
  destruct (length bs) as [|[|[|n]]] eqn:Lb; try (change (word 0) with 1 in V; change (word 1) with 256 in V; lia).
  rewrite <- R. vm_compute. reflexivity.
Qed.
Print Assumptions C11_write. Print Assumptions C11_write_bad_text. Print Assumptions C11_read_written. Print Assumptions C11_marker.
Example C11_case : strip_nul [97; 0; 98; 0; 0] [97; 0; 98] /\ exists bs, write_debug_string [97; 0; 98; 0; 0] = Ok bs.
Proof.
  split; [exists 2%nat; split; [reflexivity|]; apply no_trailing_nul_spec; reflexivity|]. eexists. vm_compute. reflexivity.
Qed.

(** ** C12: fixed-length strings *)
Theorem C12_write : forall n s enc, (0 < n)%nat -> str_encode s = Ok enc ->
  ((length enc <= n)%nat -> exists bs, write_string n s = Ok bs /\ length bs = n /\
     bs = enc ++ repeat (byte_of 0) (n - length enc)) /\
  ((n < length enc)%nat -> write_string n s = Ok enc).
Proof.
  intros n s enc Hn E. unfold write_string, String_to_bytes. rewrite E. cbn [rbind]. destruct n; [lia|]. split; intros H.
  - eexists. split; [reflexivity|]. split; [|reflexivity]. rewrite app_length, repeat_length. lia.
  - replace (S n - length enc)%nat with 0%nat by lia. cbn. rewrite app_nil_r. reflexivity.
Qed.
Theorem C12_read_written : forall n s enc bs, (0 < n)%nat -> str_encode s = Ok enc -> (length enc <= n)%nat ->
  write_string n s = Ok bs -> forall t, strip_nul s t ->
  forall pre post v ls,
    read_string n (mkHandler (pre ++ bs ++ post) (length pre) v ls)
    = Ok (t, mkHandler (pre ++ bs ++ post) (length pre + n) v ls).
Proof.
  intros n s enc bs Hn E L W t St pre post v ls. destruct (proj1 (C12_write n s enc Hn E) L) as (b & Wb & Lb & Eb).
  rewrite W in Wb. injection Wb as <-. unfold read_string, consume_range, consume_slice, bind, ret, note, lift.
  cbn [h_content h_offset h_version h_losses]. rewrite (slice_exact pre bs post n Lb). rewrite Lb, Nat.ltb_irrefl.
  unfold String_from_bytes. rewrite Eb, rstrip0_zeros. unfold str_encode in E. destruct (forallb scalar s) eqn:S; [|discriminate].
  injection E as <-. pose proof (String_from_bytes_strip s t S St) as R. unfold String_from_bytes in R. rewrite R.
  cbn [h_content h_offset h_version h_losses]. rewrite <- Eb. reflexivity.
Qed.
Print Assumptions C12_write. Print Assumptions C12_read_written.
Example C12_case : write_string 8 (lit "VER 8.8") = Ok (map byte_of [86; 69; 82; 32; 56; 46; 56; 0])
  /\ exists bs, write_string 2 (lit "abc") = Ok bs /\ length bs = 3%nat.
Proof. split; [vm_compute; reflexivity|]. eexists. split; vm_compute; reflexivity. Qed.

(** ** C13: floats *)
(** The 4-byte patterns that are signalling NaNs: exponent all ones, top fraction bit clear,
    fraction not zero. *)
Definition signalling (b : Z) : Prop := s_exp b = 255 /\ 0 < s_man b < 2 ^ 22.
Lemma signalling_spec b : signalling b <-> f32_snan b = true.
Proof. unfold signalling, f32_snan. change (s_exp b) with (f32_exp b). change (s_man b) with (f32_man b). lia. Qed.
Theorem C13_patterns : forall bs, length bs = 4%nat -> ~ signalling (le_value bs) ->
  exists x, Float_from_bytes LittleEndian bs = Ok x /\ Float_to_bytes LittleEndian x = Ok bs.
Proof.
  intros bs L N. rewrite signalling_spec in N. unfold Float_from_bytes, Float_to_bytes. rewrite L. cbn [Nat.eqb order].
  eexists. split; [reflexivity|]. pose proof (le_value_4_range bs L) as R.
  rewrite f32_of_f64_of_f32 by (try exact R; destruct (f32_snan (le_value bs)); congruence).
  f_equal. rewrite <- L. apply le_bytes_le_value.
Qed.
Theorem C13_length : forall bs, length bs <> 4%nat -> Float_from_bytes LittleEndian bs = Err StructError.
Proof. intros bs L. unfold Float_from_bytes. destruct (Nat.eqb_spec (length bs) 4); [contradiction|reflexivity]. Qed.
(** Reading gives the number the pattern stands for. *)
Theorem C13_read_value : forall bs x, length bs = 4%nat -> f32_finite (le_value bs) ->
  Float_from_bytes LittleEndian bs = Ok x ->
  f64_finite x /\ d_sign x = s_sign (le_value bs) /\ f64_value x = f32_value (le_value bs).
Proof.
  intros bs x L F. unfold Float_from_bytes. rewrite L. cbn [Nat.eqb order]. intros [= <-]. apply widen_value, F.
Qed.
(** A finite Python float survives a write/read cycle iff it is a binary32 number. *)
Definition survives (x : f64) : Prop :=
  exists bs, Float_to_bytes LittleEndian x = Ok bs /\ Float_from_bytes LittleEndian bs = Ok x.
Lemma survives_exact x : survives x <-> f32_exact x = true.
Proof.
  unfold survives, Float_to_bytes, Float_from_bytes. cbn [order]. rewrite f32_exact_eq. split.
  - intros (bs & E & R). apply Ok_inj in E; subst bs. rewrite le_bytes_length in R. change (Nat.eqb 4 4) with true in R.
    rewrite le_value_le_bytes_f32 in R. congruence.
  - intros H. eexists. split; [reflexivity|]. rewrite le_bytes_length, le_value_le_bytes_f32, H. reflexivity.
Qed.
Theorem C13_survives : forall x, f64_finite x ->
  (survives x <-> exists b, f32_finite b /\ f32_value b = f64_value x).
Proof. intros x F. rewrite survives_exact. apply exact_iff_value, F. Qed.
Theorem C13_survives_any : forall x,
  survives x <-> exists bs, Float_from_bytes LittleEndian bs = Ok x.
Proof.
  intros x. rewrite survives_exact, f32_exact_iff. unfold Float_from_bytes. cbn [order]. split.
  - intros (b & R & E). exists (le_bytes 4 b). rewrite le_bytes_length, le_value_le_bytes, Z.mod_small by exact R.
    cbn [Nat.eqb]. congruence.
  - intros (bs & H). destruct (Nat.eqb_spec (length bs) 4) as [L|]; [|discriminate]. injection H as <-.
    exists (le_value bs). split; [apply le_value_4_range, L|reflexivity].
Qed.
(** Below the overflow threshold 2^128 - 2^103 a finite float is stored as the nearest binary32
    number, ties to even, with the sign kept. *)
Definition too_big (x : f64) : Prop := (2 ^ 128 - 2 ^ 103) * 2 ^ 1074 <= Z.abs (f64_value x).
Theorem C13_nearest : forall x, f64_finite x -> ~ too_big x ->
  exists b, Float_to_bytes LittleEndian x = Ok (little_endian 4 b) /\ nearest_even (f64_value x) b.
Proof.
  intros x F N. exists (f32_of_f64 x). unfold Float_to_bytes. cbn [order]. rewrite little_endian_le_bytes. split; [reflexivity|].
  apply round_nearest; [exact F|]. destruct (f64_too_large x) eqn:E; [|reflexivity].
  apply too_large_iff in E. destruct E as [_ E]. contradiction.
Qed.
Print Assumptions C13_patterns. Print Assumptions C13_length. Print Assumptions C13_read_value.
Print Assumptions C13_survives. Print Assumptions C13_survives_any. Print Assumptions C13_nearest.
(** 0.1 is finite, in range and not a binary32 number; 0.5 is one. *)
Definition f64_tenth : f64 := f64_of_bits 4591870180066957722. (* 0x3FB999999999999A *)
Definition f64_half : f64 := f64_of_bits (1022 * 2 ^ 52).
Example C13_case_tenth : f64_finite f64_tenth /\ ~ too_big f64_tenth /\ ~ survives f64_tenth /\ survives f64_half.
Proof.
  split; [vm_compute; discriminate|]. split; [intros H; vm_compute in H; apply H; reflexivity|]. rewrite !survives_exact.
  split; [vm_compute; discriminate|vm_compute; reflexivity].
Qed.

(** ** C14: floats that are too large *)
Definition infinity_of (x : f64) : Z := d_sign x * 2 ^ 31 + 255 * 2 ^ 23.
Theorem C14_plain_becomes_infinity : forall x, f64_finite x -> too_big x ->
  write_float x = Ok (little_endian 4 (infinity_of x)).
Proof.
  intros x F T. assert (E : f64_too_large x = true) by (apply too_large_iff; split; assumption).
  unfold write_float, Float_to_bytes. cbn [order]. rewrite little_endian_le_bytes. f_equal. f_equal.
  unfold f64_too_large, narrow_overflows in E. unfold f64_finite in F. change (d_exp x) with (f64_exp (f64_bits x)) in F.
  unfold f32_of_f64, narrow, narrow_mag, infinity_of, f32_inf in *. change (d_sign x) with (f64_sign (f64_bits x)).
  destruct (f64_exp (f64_bits x) =? 2047) eqn:X; [lia|]. lia.
Qed.
Theorem C14_plain_never_raises : forall x, exists bs, write_float x = Ok bs /\ length bs = 4%nat.
Proof. intros x. eexists. split; [reflexivity|]. apply le_bytes_length. Qed.
Theorem C14_struct_raises : forall x, (f64_finite x /\ too_big x <-> pack1 Ff (VFloat x) = Err OverflowError) /\
  (~ (f64_finite x /\ too_big x) -> pack1 Ff (VFloat x) = write_float x).
Proof.
  intros x. unfold too_big. rewrite <- too_large_iff. cbn [pack1]. unfold pack_float, write_float, Float_to_bytes. cbn [order].
  destruct (f64_too_large x); split; try split; try congruence; intros H; exfalso; apply H; reflexivity.
Qed.
(** In a whole struct: one such float makes the call raise unless an earlier item does. *)
Theorem C14_struct_never_truncates : forall f vs bs, struct_pack f vs = Ok bs ->
  forall x, In (VFloat x) vs -> ~ (f64_finite x /\ too_big x).
Proof.
  intros f vs bs. unfold struct_pack. destruct (parse_fmt f) as [cs|]; [|discriminate].
  destruct (Nat.eqb_spec (length cs) (length vs)) as [L|]; [|discriminate]. revert vs bs L.
  induction cs as [|c cs IH]; intros [|v vs] bs L E x I; try discriminate; [destruct I|].
  cbn [pack_items] in E. destruct (pack1 c v) as [b1|] eqn:E1; [|discriminate]. cbn [wapp rbind] in E.
  destruct (pack_items cs vs) as [b2|] eqn:E2; [|discriminate]. injection L as L. destruct I as [->|I].
  - intros T. destruct c; try discriminate. apply C14_struct_raises in T. congruence.
  - eapply IH; eassumption.
Qed.
Print Assumptions C14_plain_becomes_infinity. Print Assumptions C14_plain_never_raises.
Print Assumptions C14_struct_raises. Print Assumptions C14_struct_never_truncates.
(** 1e39 *)
Definition f64_1e39 : f64 := f64_of_bits 5190295371619641557.
Example C14_case : f64_finite f64_1e39 /\ too_big f64_1e39 /\
  write_float f64_1e39 = Ok (map byte_of [0; 0; 128; 127]) /\ struct_pack "<hfb" [VInt 1; VFloat f64_1e39; VInt 1] = Err OverflowError.
Proof. split; [vm_compute; discriminate|]. split; [vm_compute; discriminate|]. split; vm_compute; reflexivity. Qed.

(** ** C15: struct formats *)
(** Every format in task.py and unit.py with the length the code declares for it. *)
Definition formats : list (string * nat) :=
  [(task_FORMAT, task_FORMAT_LENGTH); (task_FORMAT_88, task_FORMAT_LENGTH_88);
   (unit_RESOURCE_STORAGE_FORMAT, unit_RESOURCE_STORAGE_FORMAT_LENGTH);
   (unit_DAMAGE_GRAPHIC_FORMAT, unit_DAMAGE_GRAPHIC_FORMAT_LENGTH);
   (unit_DEAD_FISH_FORMAT, unit_DEAD_FISH_FORMAT_LENGTH);
   (unit_ATTACK_OR_ARMOR_FORMAT, unit_ATTACK_OR_ARMOR_FORMAT_LENGTH);
   (unit_PROJECTILE_FORMAT, unit_PROJECTILE_FORMAT_LENGTH);
   (unit_RESOURCE_COST_FORMAT, unit_RESOURCE_COST_FORMAT_LENGTH);
   (unit_TRAIN_LOCATION_FORMAT, unit_TRAIN_LOCATOIN_FORMAT_LENGTH);
   (unit_TRAIN_LOCATION_FORMAT_88, unit_TRAIN_LOCATOIN_FORMAT_LENGTH_88);
   (unit_CREATABLE_FORMAT, unit_CREATABLE_FORMAT_LENGTH);
   (unit_CREATABLE_FORMAT_84, unit_CREATABLE_FORMAT_LENGTH_84);
   (unit_CREATABLE_FORMAT_88, unit_CREATABLE_FORMAT_LENGTH_88);
   (unit_BUILDING_ANNEX_FORMAT, unit_BUILDING_ANNEX_FORMAT_LENGTH);
   (unit_BUILDING_ANNEX_FORMAT_1, unit_BUILDING_ANNEX_FORMAT_1_LENGTH);
   (unit_BUILDING_ANNEX_FORMAT_2, unit_BUILDING_ANNEX_FORMAT_2_LENGTH);
   (unit_FORMAT, unit_FORMAT_LENGTH); (unit_FORMAT_88, unit_FORMAT_LENGTH_88)].
(** What an item of a format holds: the characters of the format, one item each. *)
Definition item_holds (c : Ascii.ascii) (v : pyval) : Prop :=
  match c, v with
  | "b"%char, VInt z => -128 <= z <= 127
  | "h"%char, VInt z => -32768 <= z <= 32767
  | "l"%char, VInt z => -2147483648 <= z <= 2147483647
  | "f"%char, VFloat x => survives x
  | _, _ => False
  end.
Definition item_size (c : Ascii.ascii) : nat :=
  match c with "b"%char => 1 | "h"%char => 2 | "l"%char => 4 | "f"%char => 4 | _ => 0 end.
Definition items (f : string) : list Ascii.ascii := tl (list_ascii_of_string f).
Definition fmt_values (f : string) (vs : list pyval) : Prop := Forall2 item_holds (items f) vs.
Definition char_of (c : fc) : Ascii.ascii := match c with Fb => "b" | Fh => "h" | Fl => "l" | Ff => "f" end%char.
Definition known (p : string * nat) : Prop := exists cs, parse_fmt (fst p) = Some cs /\ items (fst p) = map char_of cs /\ fmt_size cs = snd p.
Lemma formats_known : Forall known formats.
Proof. repeat constructor; eexists; (split; [vm_compute; reflexivity|]); split; vm_compute; reflexivity. Qed.
Lemma item_holds_ok c v : item_holds (char_of c) v <-> val_ok c v.
Proof.
  destruct c, v; cbn [char_of item_holds val_ok fc_size]; try tauto;
    rewrite <- ?fits_i8, <- ?fits_i16, <- ?fits_i32, ?within_spec; try reflexivity. apply survives_exact.
Qed.
Lemma fmt_values_ok f (n : nat) cs vs : parse_fmt f = Some cs -> items f = map char_of cs -> n = n ->
  fmt_values f vs <-> vals_ok cs vs.
Proof.
  intros _ E _. unfold fmt_values. rewrite E. clear E f n. revert vs. induction cs as [|c cs IH]; intros vs; cbn [map].
  - split; [intros H; inversion H; exact I|]. destruct vs; [constructor|intros []].
  - split.
    + intros H. inversion H; subst. cbn. rewrite <- item_holds_ok, <- IH. auto.
    + destruct vs as [|v vs]; [intros []|]. cbn. rewrite <- item_holds_ok, <- IH. intros []. constructor; auto.
Qed.
(** The declared length is the sum of the item sizes. *)
Theorem C15_declared_length : forall f n, In (f, n) formats ->
  n = fold_right (fun c k => (item_size c + k)%nat) 0%nat (items f) /\ n = calcsize f.
Proof.
  intros f n H. pose proof (proj1 (Forall_forall _ _) formats_known _ H) as (cs & P & E & S). cbn [fst snd] in *.
  unfold calcsize. rewrite P, S. split; [|reflexivity]. rewrite E, <- S. clear. induction cs as [|c cs IH]; [reflexivity|].
  cbn. rewrite <- IH. destruct c; reflexivity.
Qed.
(** Packing values that the items hold gives that many bytes, and unpacking gives the values back. *)
Theorem C15_pack_unpack : forall f n vs, In (f, n) formats -> fmt_values f vs ->
  exists bs, struct_pack f vs = Ok bs /\ length bs = n /\ struct_unpack f bs = Ok vs.
Proof.
  intros f n vs H V. pose proof (proj1 (Forall_forall _ _) formats_known _ H) as (cs & P & E & S). cbn [fst snd] in *.
  rewrite (fmt_values_ok f n cs vs P E eq_refl) in V. destruct (struct_roundtrip f cs vs P V) as (bs & A & B & C & _).
  exists bs. unfold calcsize in B. rewrite P, S in B. auto.
Qed.
(** Whatever is packed has that many bytes. *)
Theorem C15_pack_size : forall f n vs bs, In (f, n) formats -> struct_pack f vs = Ok bs -> length bs = n.
Proof.
  intros f n vs bs H. pose proof (proj1 (Forall_forall _ _) formats_known _ H) as (cs & P & E & S). cbn [fst snd] in *.
  unfold struct_pack. rewrite P. destruct (Nat.eqb_spec (length cs) (length vs)) as [L|]; [|discriminate]. rewrite <- S. clear -L.
  revert vs bs L. induction cs as [|c cs IH]; intros [|v vs] bs L; try discriminate; cbn [pack_items fmt_size].
  - intros [= <-]. reflexivity.
  - destruct (pack1 c v) as [b1|] eqn:E1; [|discriminate]. cbn [wapp rbind]. destruct (pack_items cs vs) as [b2|] eqn:E2; [|discriminate].
    intros [= <-]. rewrite app_length. injection L as L. rewrite (IH vs b2 L E2). f_equal.
    assert (F : forall x b, pack_float x = Ok b -> length b = 4%nat).
    { intros x b. unfold pack_float. destruct (f64_too_large x); [discriminate|]. intros H. apply Ok_inj in H. subst b. apply le_bytes_length. }
    destruct c, v; cbn [pack1 fc_size] in *; try discriminate.
    all: try (destruct (f64_of_Z z); [eapply F, E1|discriminate]). all: try (eapply F, E1).
    all: try (match type of E1 with (if ?c then _ else _) = _ => destruct c; [|discriminate] end; apply Ok_inj in E1; subst b1; apply le_bytes_length).
Qed.
(** Unpacking accepts exactly the buffers of that size; packing the result gives the buffer
    back unless a signalling NaN was in it. *)
Theorem C15_unpack_pack : forall f n bs, In (f, n) formats ->
  (length bs <> n -> struct_unpack f bs = Err StructError) /\
  (length bs = n -> exists vs, struct_unpack f bs = Ok vs /\ fmt_values f vs /\
     (struct_snan f bs = false -> struct_pack f vs = Ok bs)).
Proof.
  intros f n bs H. pose proof (proj1 (Forall_forall _ _) formats_known _ H) as (cs & P & E & S). cbn [fst snd] in *.
  unfold struct_unpack. rewrite P, S. split; intros L.
  - destruct (Nat.eqb_spec (length bs) n); [contradiction|reflexivity].
  - rewrite L, Nat.eqb_refl. eexists. split; [reflexivity|]. rewrite (fmt_values_ok f n cs _ P E eq_refl).
    assert (U : struct_unpack f bs = Ok (unpack_items cs bs)) by (unfold struct_unpack; rewrite P, S, L, Nat.eqb_refl; reflexivity).
    destruct (struct_unpack_inv f cs bs _ P U) as (_ & A & B). auto.
Qed.
(** Integers outside the range of their item raise. *)
Theorem C15_pack_range : forall c z, (c = Fb \/ c = Fh \/ c = Fl) ->
  (item_holds (char_of c) (VInt z) <-> exists bs, pack1 c (VInt z) = Ok bs) /\
  (~ item_holds (char_of c) (VInt z) -> pack1 c (VInt z) = Err StructError).
Proof.
  intros c z H. rewrite item_holds_ok. destruct c; cbn [val_ok pack1]; [..|destruct H as [|[|]]; discriminate];
    destruct (int_fits _ true z); split; try split; try congruence; eauto; intros [? ?]; discriminate.
Qed.
Print Assumptions C15_declared_length. Print Assumptions C15_pack_unpack. Print Assumptions C15_pack_size.
Print Assumptions C15_unpack_pack. Print Assumptions C15_pack_range.
Example C15_case : fmt_values unit_RESOURCE_STORAGE_FORMAT [VInt (-7); VFloat f64_half; VInt 127].
Proof. repeat constructor; try lia. apply survives_exact. vm_compute. reflexivity. Qed.

(** ** C16: versions *)
Theorem C16_order : forall a b,
  (version_lt a b = true <-> vnum a < vnum b) /\ (version_le a b = true <-> vnum a <= vnum b) /\
  (version_gt a b = true <-> vnum a > vnum b) /\ (version_ge a b = true <-> vnum a >= vnum b).
Proof. intros a b. destruct a, b; vm_compute; repeat split; intros; congruence. Qed.
Theorem C16_distinct : forall a b, vnum a = vnum b -> a = b.
Proof. intros a b. destruct a, b; intros H; (reflexivity || discriminate H). Qed.
(** Hence a total order with UNDEFINED at the bottom. *)
Theorem C16_total_order :
  (forall a, version_le a a = true) /\
  (forall a b, version_le a b = true -> version_le b a = true -> a = b) /\
  (forall a b c, version_le a b = true -> version_le b c = true -> version_le a c = true) /\
  (forall a b, version_le a b = true \/ version_le b a = true) /\
  (forall a b, version_lt a b = negb (version_ge a b) /\ version_gt a b = version_lt b a /\ version_ge a b = version_le b a) /\
  (forall a, a <> UNDEFINED -> version_lt UNDEFINED a = true).
Proof.
  assert (L : forall a b, version_le a b = true <-> vnum a <= vnum b) by (intros; apply C16_order).
  repeat split; intros; rewrite ?L in *; try lia.
  - apply C16_distinct. lia.
  - destruct a, b; reflexivity.
  - destruct a, b; reflexivity.
  - destruct a, b; reflexivity.
  - destruct a; try reflexivity. congruence.
Qed.
Theorem C16_lookup : forall s,
  (forall v, version_lookup s = Ok v <-> version_value v = s) /\
  ((forall v, version_value v <> s) -> version_lookup s = Err ValueError).
Proof.
  assert (I : forall s v, version_lookup s = Ok v -> version_value v = s).
  { intros s v. unfold version_lookup. destruct (find _ all_versions) as [w|] eqn:F; [|discriminate]. intros [= <-].
    apply find_some in F. destruct F as [_ F]. unfold str_eqb in F. destruct (str_compare (version_value w) s) eqn:E; try discriminate.
    apply str_compare_eq, E. }
  intros s. split.
  - intros v. split; [apply I|]. intros <-. destruct v; vm_compute; reflexivity.
  - intros N. destruct (version_lookup s) as [v|e] eqn:E; [exfalso; exact (N v (I s v E))|].
    unfold version_lookup in E. destruct (find _ all_versions); [discriminate|]. congruence.
Qed.
(** The version strings: "UNDEFINED", and "VER a.b" for the version number a.b, of which there are ten. *)
Theorem C16_names : forall v, version_value v =
  if vnum v =? 0 then lit "UNDEFINED" else lit "VER " ++ [48 + vnum v / 10; 46; 48 + vnum v mod 10].
Proof. destruct v; vm_compute; reflexivity. Qed.
Theorem C16_accepted : forall s, (exists v, version_lookup s = Ok v) <->
  In s [lit "UNDEFINED"; lit "VER 7.1"; lit "VER 7.2"; lit "VER 7.3"; lit "VER 7.4"; lit "VER 7.5"; lit "VER 7.6"; lit "VER 7.7";
        lit "VER 7.8"; lit "VER 8.4"; lit "VER 8.8"].
Proof.
  intros s. split.
  - intros [v E]. apply C16_lookup in E. subst s. destruct v; vm_compute; tauto.
  - intros I. repeat (destruct I as [<-|I]; [eexists; vm_compute; reflexivity|]). destruct I.
Qed.
Print Assumptions C16_names. Print Assumptions C16_accepted.
Print Assumptions C16_order. Print Assumptions C16_distinct. Print Assumptions C16_total_order. Print Assumptions C16_lookup.
Example C16_case : version_lookup (lit "VER 7.8") = Ok VER_78 /\ version_lookup (lit "VER 9.9") = Err ValueError.
Proof. split; vm_compute; reflexivity. Qed.

(** ** C36: byte order of the host *)
Theorem C36_host_order : forall x,
  Float_to_bytes LittleEndian x = Ok (little_endian 4 (f32_of_f64 x)) /\
  Float_to_bytes BigEndian x = Ok (rev (little_endian 4 (f32_of_f64 x))).
Proof. intros x. unfold Float_to_bytes. cbn [order]. rewrite little_endian_le_bytes. auto. Qed.
(** On one host writing and reading agree as on any other; across hosts they need not. *)
Theorem C36_same_host : forall host x,
  (exists bs, Float_to_bytes host x = Ok bs /\ Float_from_bytes host bs = Ok x) <-> survives x.
Proof.
  intros host x. rewrite survives_exact, f32_exact_eq. unfold Float_to_bytes, Float_from_bytes. split.
  - intros (bs & E & R). apply Ok_inj in E; subst bs. destruct host; cbn [order] in R; rewrite ?rev_length, ?rev_involutive, le_bytes_length in R;
      cbn [Nat.eqb] in R; rewrite le_value_le_bytes_f32 in R; congruence.
  - intros H. eexists. split; [reflexivity|]. destruct host; cbn [order];
      rewrite ?rev_length, ?rev_involutive, le_bytes_length, le_value_le_bytes_f32, H; reflexivity.
Qed.
Theorem C36_across_hosts : exists x bs y, survives x /\ Float_to_bytes BigEndian x = Ok bs /\
  Float_from_bytes LittleEndian bs = Ok y /\ y <> x.
Proof.
  exists f64_half. do 2 eexists. split; [apply survives_exact; vm_compute; reflexivity|]. split; [reflexivity|].
  split; [vm_compute; reflexivity|]. vm_compute. discriminate.
Qed.
Print Assumptions C36_host_order. Print Assumptions C36_same_host. Print Assumptions C36_across_hosts.

(** ** C37: array readers *)
(** [l] is what [m] returns when called [length l] times in a row. *)
Inductive in_turn {A} (m : rd A) : handler -> list A -> handler -> Prop :=
| in_turn_nil h : in_turn m h [] h
| in_turn_cons h x h1 l h2 : m h = Ok (x, h1) -> in_turn m h1 l h2 -> in_turn m h (x :: l) h2.
Lemma loop_in_turn {A} (m : rd A) n : forall h l h',
  loop n m h = Ok (l, h') <-> length l = n /\ in_turn m h l h'.
Proof.
  induction n as [|n IH]; intros h l h'; cbn [loop].
  - unfold ret. split; [intros [= <- <-]; split; [reflexivity|constructor]|].
    intros [L T]. destruct l; [|discriminate]. inversion T; subst. reflexivity.
  - unfold bind, ret. split.
    + destruct (m h) as [[x h1]|] eqn:E; [|discriminate]. destruct (loop n m h1) as [[r h2]|] eqn:E2; [|discriminate].
      intros [= <- <-]. apply IH in E2. destruct E2 as [L T]. split; [cbn; congruence|]. econstructor; eassumption.
    + intros [L T]. destruct l as [|x l]; [discriminate|]. injection L as L. inversion T as [|? ? h1 ? ? E1 T1]; subst. rewrite E1.
      rewrite (proj2 (IH h1 l h') (conj eq_refl T1)). reflexivity.
Qed.
(** For every element reader, every size and every state. *)
Theorem C37_array : forall {A} (m : rd A) (size : Z) h l h', 0 <= size ->
  (read_class_array m size h = Ok (l, h') <-> Z.of_nat (length l) = size /\ in_turn m h l h').
Proof.
  intros A m size h l h' Hs. unfold read_class_array, for_range, bind, note. replace (size <? 0) with false by lia.
  rewrite loop_in_turn. split; intros [L T]; (split; [lia|exact T]).
Qed.
Theorem C37_negative : forall {A} (m : rd A) (size : Z) h, size < 0 ->
  exists h', read_class_array m size h = Ok ([], h') /\ h_content h' = h_content h /\ h_offset h' = h_offset h /\ h_version h' = h_version h.
Proof.
  intros A m size h Hs. unfold read_class_array, for_range, bind, note. replace (size <? 0) with true by lia.
  replace (Z.to_nat size) with 0%nat by lia. eexists. split; [reflexivity|]. auto.
Qed.
Theorem C37_count : forall {A} (m : rd A) (size : Z) h l h',
  read_class_array m size h = Ok (l, h') -> Z.of_nat (length l) = Z.max 0 size.
Proof.
  intros A m size h l h' E. destruct (Z_lt_le_dec size 0) as [L|L].
  - destruct (C37_negative m size h L) as (h2 & E2 & _). rewrite E2 in E. injection E as <- _. cbn. lia.
  - apply C37_array in E; [|exact L]. lia.
Qed.
(** The other array readers are the same function of their element reader. *)
Theorem C37_sized : forall size h,
  read_int_8_array size h = read_class_array read_int_8 size h /\
  read_int_16_array size h = read_class_array (read_int_16 true) size h /\
  read_int_32_array size h = read_class_array (read_int_32 true) size h /\
  read_float_array size h = read_class_array read_float size h.
Proof. intros; repeat split. Qed.
Lemma loop_array {A} k (m : rd (list A)) e : is_loop k m e -> 0 <= k -> forall h, m h = for_range k e h.
Proof.
  intros L Hk h. unfold for_range, bind, note. replace (k <? 0) with false by lia.
  first [exact (L h) | symmetry; exact (L h)].
Qed.
Theorem C37_fixed : forall h,
  read_int_8_array_2 h = read_int_8_array 2 h /\ read_int_8_array_3 h = read_int_8_array 3 h /\
  read_int_8_array_5 h = read_int_8_array 5 h /\ read_int_8_array_6 h = read_int_8_array 6 h /\
  read_int_8_array_10 h = read_int_8_array 10 h /\
  read_int_16_array_2 h = read_int_16_array 2 h /\ read_int_16_array_3 h = read_int_16_array 3 h /\
  read_int_16_array_4 h = read_int_16_array 4 h /\ read_int_16_array_6 h = read_int_16_array 6 h /\
  read_int_32_array_10 h = read_int_32_array 10 h /\
  read_float_array_2 h = read_float_array 2 h /\ read_float_array_3 h = read_float_array 3 h.
Proof.
  intros h. unfold read_int_8_array, read_int_16_array, read_int_32_array, read_float_array.
  split; [exact (loop_array _ _ _ il_u8_2 ltac:(lia) h)|].
  split; [exact (loop_array _ _ _ il_u8_3 ltac:(lia) h)|].
  split; [exact (loop_array _ _ _ il_u8_5 ltac:(lia) h)|].
  split; [exact (loop_array _ _ _ il_u8_6 ltac:(lia) h)|].
  split; [exact (loop_array _ _ _ il_u8_10 ltac:(lia) h)|].
  split; [exact (loop_array _ _ _ il_i16_2 ltac:(lia) h)|].
  split; [exact (loop_array _ _ _ il_i16_3 ltac:(lia) h)|].
  split; [exact (loop_array _ _ _ il_i16_4 ltac:(lia) h)|].
  split; [exact (loop_array _ _ _ il_i16_6 ltac:(lia) h)|].
  split; [exact (loop_array _ _ _ il_i32_10 ltac:(lia) h)|].
  split; [exact (loop_array _ _ _ il_f32_2 ltac:(lia) h)|]. exact (loop_array _ _ _ il_f32_3 ltac:(lia) h).
Qed.
Theorem C37_fixed_class : forall {A} (m : rd A) h,
  read_class_array_3 m h = read_class_array m 3 h /\ read_class_array_4 m h = read_class_array m 4 h.
Proof. intros A m h. unfold read_class_array. split; [exact (loop_array _ _ _ (il_class_3 m) ltac:(lia) h)|exact (loop_array _ _ _ (il_class_4 m) ltac:(lia) h)]. Qed.
(** The cursor advances by the size of the elements. *)
Theorem C37_advance : forall size h l h',
  (read_int_8_array size h = Ok (l, h') -> h_offset h' = (h_offset h + length l)%nat) /\
  (read_int_16_array size h = Ok (l, h') -> h_offset h' = (h_offset h + 2 * length l)%nat) /\
  (read_int_32_array size h = Ok (l, h') -> h_offset h' = (h_offset h + 4 * length l)%nat).
Proof.
  assert (G : forall {A} (m : rd A) k, (forall h x h', m h = Ok (x, h') -> h_offset h' = (h_offset h + k)%nat) ->
    forall h l h', in_turn m h l h' -> h_offset h' = (h_offset h + k * length l)%nat).
  { intros A m k Hm h l h' T. induction T as [h|h x h1 l h2 E T IH]; cbn [length]; [lia|]. rewrite IH, (Hm _ _ _ E). lia. }
  assert (R : forall {A} (m : rd A) k, (forall h x h', m h = Ok (x, h') -> h_offset h' = (h_offset h + k)%nat) ->
    forall size h l h', read_class_array m size h = Ok (l, h') -> h_offset h' = (h_offset h + k * length l)%nat).
  { intros A m k Hm size h l h' E. destruct (Z_lt_le_dec size 0) as [L|L].
    - destruct (C37_negative m size h L) as (h2 & E2 & _ & O & _). rewrite E2 in E. injection E as <- <-. cbn. lia.
    - apply C37_array in E; [|exact L]. eapply G; [exact Hm|apply E]. }
  assert (P : forall n s h x h', (bs <- consume_range n ;; ret (Int_from_bytes bs s)) h = Ok (x, h') -> h_offset h' = (h_offset h + n)%nat).
  { intros n s h x h'. unfold consume_range, consume_slice, bind, ret, note. cbn [h_content h_offset h_version h_losses].
    destruct (Nat.ltb (length (slice (h_content h) (h_offset h) n)) n); intros [= _ <-]; reflexivity. }
  intros size h l h'. repeat split; intros E.
  - rewrite (R _ read_int_8 1%nat (P 1%nat false) size h l h' E). lia.
  - apply (R _ (read_int_16 true) 2%nat (P 2%nat true) size h l h' E).
  - apply (R _ (read_int_32 true) 4%nat (P 4%nat true) size h l h' E).
Qed.
Print Assumptions C37_array. Print Assumptions C37_negative. Print Assumptions C37_count. Print Assumptions C37_sized.
Print Assumptions C37_fixed. Print Assumptions C37_fixed_class. Print Assumptions C37_advance.
Example C37_case : exists h', read_int_16_array 2 (new_handler (map byte_of [1; 0; 255; 255])) = Ok ([1; -1], h').
Proof. eexists. vm_compute. reflexivity. Qed.
