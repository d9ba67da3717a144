(** * Proof framework: strings, arrays, structs for [Parses]. *)
From Verif Require Import Base PyInt PyFloat PyStr PyStruct DataTypes Versions Common Wire Layout Codec.
From Coq Require Import String ZifyBool.
Open Scope Z_scope.
Local Open Scope list_scope.
Local Notation length := List.length.

Lemma ok_text s : cell_ok (Text s) = true ->
  forallb scalar s = true /\ no_trailing_nul s = true /\ int_fits 2 false (Z.of_nat (length (utf8 s))) = true.
Proof.
  cbv [cell_ok]. rewrite fits_u16. intros H. apply andb_true_iff in H. destruct H as [H H2].
  apply andb_true_iff in H. tauto.
Qed.
Lemma String_from_bytes_utf8 s k : forallb scalar s = true -> no_trailing_nul s = true ->
  String_from_bytes (utf8 s ++ repeat (byte_of 0) k) = Ok s.
Proof.
  intros Hs Hn. unfold String_from_bytes. rewrite rstrip0_zeros, rstrip0_id by (apply no_trailing_nul_utf8; assumption).
  unfold bytes_decode. rewrite utf8_decode_encode by assumption. reflexivity.
Qed.

Lemma Parses_note {B} v cs c l (k : unit -> rd B) x : c = false ->
  Parses v cs (k tt) x -> Parses v cs (bind (note c l) k) x.
Proof.
  intros -> H Hc. destruct (H Hc) as (bs & E & R). exists bs. split; [exact E|].
  intros pre post ls. apply R.
Qed.

(** The same on given bytes. *)
Definition On {A} (v : Version) (bs : bytes) (m : rd A) (x : A) : Prop :=
  forall pre post ls,
      m (mkHandler (pre ++ bs ++ post) (length pre) v ls)
      = Ok (x, mkHandler (pre ++ bs ++ post) (length pre + length bs) v ls).
Lemma On_bind {A B} v b1 b2 (m : rd A) (k : A -> rd B) a b :
  On v b1 m a -> On v b2 (k a) b -> On v (b1 ++ b2) (bind m k) b.
Proof.
  intros R1 R2 pre post ls. unfold bind.
  pose proof (R1 pre (b2 ++ post) ls) as R1'. rewrite <- app_assoc. rewrite R1'.
  pose proof (R2 (pre ++ b1) post ls) as R2'. rewrite <- app_assoc in R2'. rewrite app_length in R2'.
  rewrite R2', app_length, Nat.add_assoc. reflexivity.
Qed.
Lemma On_int v n s z : int_fits n s z = true ->
  On v (le_bytes n z) (bs <- consume_range n ;; ret (Int_from_bytes bs s)) z.
Proof.
  intros Hc pre post ls. unfold bind. rewrite consume_at by apply le_bytes_length.
  unfold ret, Int_from_bytes. rewrite (int_roundtrip n s z Hc). reflexivity.
Qed.
Lemma On_skip {A B} v bs (m : rd A) (k : A -> rd B) a x :
  On v [] m a -> On v bs (k a) x -> On v bs (bind m k) x.
Proof. apply (On_bind v []). Qed.

Lemma ends_in_nul_utf8 s : forallb scalar s = true -> no_trailing_nul s = true -> ends_in_nul (utf8 s) = false.
Proof.
  intros Hs Hn. apply no_trailing_nul_utf8 in Hn; [|exact Hs]. unfold ends_in_nul.
  destruct (utf8 s) as [|b r _] using rev_ind; [reflexivity|]. rewrite last_last.
  specialize (Hn r b eq_refl). unfold byte_eqb. change (byte_val (byte_of 0)) with 0. lia.
Qed.
Lemma Parses_text v s : Parses v [Text s] read_debug_string s.
Proof.
  intros Hc. apply cells_ok_cons in Hc. destruct Hc as [Hc _].
  destruct (ok_text s Hc) as (Hs & Hn & Hl).
  exists (le_bytes 2 2656 ++ le_bytes 2 (Z.of_nat (length (utf8 s))) ++ utf8 s).
  split.
  { rewrite encode_one. cbv [cell_bytes]. rewrite fits_u16, Hs, Hl, little_endian_le_bytes. reflexivity. }
  unfold read_debug_string.
  eapply (On_bind v); [apply On_int; reflexivity|]. cbv beta.
  eapply On_skip with (a := tt).
  { intros pre post ls. cbn [length]. rewrite Nat.add_0_r. reflexivity. }
  eapply (On_bind v); [apply On_int; exact Hl|]. cbv beta. rewrite Nat2Z.id.
  intros pre post ls. unfold bind. rewrite consume_at by reflexivity.
  unfold note, lift. rewrite ends_in_nul_utf8 by assumption.
  pose proof (String_from_bytes_utf8 s 0 Hs Hn) as S. cbn [repeat] in S. rewrite app_nil_r in S. rewrite S. reflexivity.
Qed.

Lemma Parses_padded v n s : Parses v [Padded n s] (read_string n) s.
Proof.
  intros Hc. apply cells_ok_cons in Hc. destruct Hc as [Hc _]. cbv [cell_ok] in Hc.
  apply andb_true_iff in Hc. destruct Hc as [Hc Hl]. apply andb_true_iff in Hc. destruct Hc as [Hs Hn].
  exists (utf8 s ++ repeat (byte_of 0) (n - length (utf8 s))). rewrite encode_one. cbv [cell_bytes].
  rewrite Hs. split; [reflexivity|]. intros pre post ls. unfold read_string, bind.
  rewrite consume_at by (rewrite app_length, repeat_length; apply Nat.leb_le in Hl; lia).
  unfold lift. rewrite String_from_bytes_utf8 by assumption. reflexivity.
Qed.

(** ** Loops *)
Lemma Parses_loop {A} v (f : A -> list cell) (m : rd A) l :
  (forall x, In x l -> Parses v (f x) m x) -> Parses v (flat_map f l) (loop (length l) m) l.
Proof.
  induction l as [|x l IH]; intros H; cbn [flat_map loop length]; [apply Parses_ret|].
  apply Parses_bind with (a := x); [apply H; left; reflexivity|].
  apply Parses_nil_r. apply Parses_bind with (a := l); [|apply Parses_ret].
  apply IH. intros y Hy. apply H. right. exact Hy.
Qed.
Lemma Parses_for_range {A} v (f : A -> list cell) (m : rd A) n l :
  n = count l ->
  (forall x, In x l -> Parses v (f x) m x) -> Parses v (flat_map f l) (for_range n m) l.
Proof.
  intros E H. unfold for_range. apply Parses_note; [unfold count in E; lia|].
  replace (Z.to_nat n) with (length l) by (unfold count in E; lia). apply Parses_loop, H.
Qed.
Lemma Parses_for_range_single {A} v (f : A -> cell) (m : rd A) n l :
  n = count l ->
  (forall x, Parses v [f x] m x) -> Parses v (map f l) (for_range n m) l.
Proof. intros E H. rewrite <- flat_map_single. apply Parses_for_range; auto. Qed.
Lemma Parses_u8_array v n l : n = count l -> Parses v (map U8 l) (read_int_8_array n) l.
Proof. intros E. apply Parses_for_range_single; auto using Parses_u8. Qed.
Lemma Parses_i16_array v n l : n = count l -> Parses v (map I16 l) (read_int_16_array n) l.
Proof. intros E. apply Parses_for_range_single; auto using Parses_i16. Qed.
Lemma Parses_i32_array v n l : n = count l -> Parses v (map I32 l) (read_int_32_array n) l.
Proof. intros E. apply Parses_for_range_single; auto using Parses_i32. Qed.
Lemma Parses_f32_array v n l : n = count l -> Parses v (map F32 l) (read_float_array n) l.
Proof. intros E. apply Parses_for_range_single; auto using Parses_f32. Qed.

(** Fixed-arity variants are loops. *)
Ltac loop_eq := intros; unfold loop, bind, ret;
  repeat match goal with |- context [match ?m ?h with Ok _ => _ | Err _ => _ end] =>
    destruct (m h) as [[? ?]|]; [|reflexivity] end; reflexivity.
Lemma loop_2 {A} (m : rd A) h : loop 2 m h = bind m (fun e0 => bind m (fun e1 => ret [e0; e1])) h.
Proof. loop_eq. Qed.
Lemma loop_3 {A} (m : rd A) h : loop 3 m h =
  bind m (fun e0 => bind m (fun e1 => bind m (fun e2 => ret [e0; e1; e2]))) h.
Proof. loop_eq. Qed.
Lemma loop_4 {A} (m : rd A) h : loop 4 m h =
  bind m (fun e0 => bind m (fun e1 => bind m (fun e2 => bind m (fun e3 => ret [e0; e1; e2; e3])))) h.
Proof. loop_eq. Qed.
Lemma loop_5 {A} (m : rd A) h : loop 5 m h =
  bind m (fun e0 => bind m (fun e1 => bind m (fun e2 => bind m (fun e3 => bind m (fun e4 =>
  ret [e0; e1; e2; e3; e4]))))) h.
Proof. loop_eq. Qed.
Lemma loop_6 {A} (m : rd A) h : loop 6 m h =
  bind m (fun e0 => bind m (fun e1 => bind m (fun e2 => bind m (fun e3 => bind m (fun e4 =>
  bind m (fun e5 => ret [e0; e1; e2; e3; e4; e5])))))) h.
Proof. loop_eq. Qed.
Lemma loop_10 {A} (m : rd A) h : loop 10 m h =
  bind m (fun e0 => bind m (fun e1 => bind m (fun e2 => bind m (fun e3 => bind m (fun e4 =>
  bind m (fun e5 => bind m (fun e6 => bind m (fun e7 => bind m (fun e8 => bind m (fun e9 =>
  ret [e0; e1; e2; e3; e4; e5; e6; e7; e8; e9])))))))))) h.
Proof. loop_eq. Qed.

(** [is_loop k m e]: the reader [m] is [k] reads of [e]. *)
Definition is_loop {A} (k : Z) (m : rd (list A)) (e : rd A) : Prop :=
  forall h, loop (Z.to_nat k) e h = m h.
Lemma il_u8_2 : is_loop 2 read_int_8_array_2 read_int_8. Proof. intros h. apply (loop_2 read_int_8). Qed.
Lemma il_u8_3 : is_loop 3 read_int_8_array_3 read_int_8. Proof. intros h. apply (loop_3 read_int_8). Qed.
Lemma il_u8_5 : is_loop 5 read_int_8_array_5 read_int_8. Proof. intros h. apply (loop_5 read_int_8). Qed.
Lemma il_u8_6 : is_loop 6 read_int_8_array_6 read_int_8. Proof. intros h. apply (loop_6 read_int_8). Qed.
Lemma il_u8_10 : is_loop 10 read_int_8_array_10 read_int_8. Proof. intros h. apply (loop_10 read_int_8). Qed.
Lemma il_i16_2 : is_loop 2 read_int_16_array_2 (read_int_16 true). Proof. intros h. apply (loop_2 (read_int_16 true)). Qed.
Lemma il_i16_3 : is_loop 3 read_int_16_array_3 (read_int_16 true). Proof. intros h. apply (loop_3 (read_int_16 true)). Qed.
Lemma il_i16_4 : is_loop 4 read_int_16_array_4 (read_int_16 true). Proof. intros h. apply (loop_4 (read_int_16 true)). Qed.
Lemma il_i16_6 : is_loop 6 read_int_16_array_6 (read_int_16 true). Proof. intros h. apply (loop_6 (read_int_16 true)). Qed.
Lemma il_i32_10 : is_loop 10 read_int_32_array_10 (read_int_32 true). Proof. intros h. apply (loop_10 (read_int_32 true)). Qed.
Lemma il_f32_2 : is_loop 2 read_float_array_2 read_float. Proof. intros h. apply (loop_2 read_float). Qed.
Lemma il_f32_3 : is_loop 3 read_float_array_3 read_float. Proof. intros h. apply (loop_3 read_float). Qed.
Lemma il_class_3 {A} (m : rd A) : is_loop 3 (read_class_array_3 m) m. Proof. intros h. apply (loop_3 m). Qed.
Lemma il_class_4 {A} (m : rd A) : is_loop 4 (read_class_array_4 m) m. Proof. intros h. apply (loop_4 m). Qed.

Lemma count_length {A} (l : list A) k : count l = k -> length l = Z.to_nat k.
Proof. unfold count. lia. Qed.
Lemma Parses_fixed {A} v (f : A -> cell) k (m : rd (list A)) (e : rd A) l :
  is_loop k m e -> count l = k -> (forall x, Parses v [f x] e x) -> Parses v (map f l) m l.
Proof.
  intros Hl Hc He. rewrite <- flat_map_single. eapply Parses_ext; [exact Hl|].
  rewrite <- (count_length _ _ Hc). apply Parses_loop. auto.
Qed.
Lemma Parses_fixed_class {A} v (f : A -> list cell) k (m : rd (list A)) (e : rd A) l :
  is_loop k m e -> count l = k -> Forall (fun x => Parses v (f x) e x) l -> Parses v (flat_map f l) m l.
Proof.
  intros Hl Hc He. eapply Parses_ext; [exact Hl|].
  rewrite <- (count_length _ _ Hc). apply Parses_loop. apply Forall_forall, He.
Qed.
Lemma Parses_class_array {A} v (f : A -> list cell) (m : rd A) n l :
  n = count l -> Forall (fun x => Parses v (f x) m x) l ->
  Parses v (flat_map f l) (read_class_array m n) l.
Proof. intros E H. apply Parses_for_range; [exact E|]. apply Forall_forall, H. Qed.
Lemma Parses_class_array_kept {A} v (f : A -> list cell) (m : rd A) n l :
  Z.to_nat n = length l -> Forall (fun x => Parses v (f x) m x) l ->
  Parses v (flat_map f l) (read_class_array_kept m n) l.
Proof. intros E H. unfold read_class_array_kept. rewrite E. apply Parses_loop. apply Forall_forall, H. Qed.
Lemma Parses_class {A} v (m : rd A) cs x : Parses v cs m x -> Parses v cs (read_class m) x.
Proof. intros H. unfold read_class. apply Parses_nil_r. eapply Parses_bind; [exact H|apply Parses_ret]. Qed.

(** Optional slots with presence pointers. *)
Definition flag_of {A} (o : option A) : Z := match o with Some _ => 1 | None => 0 end.
Lemma flags_map {A} (l : list (option A)) : flags l = map I32 (map flag_of l).
Proof. unfold flags. rewrite map_map. apply map_ext. intros [x|]; reflexivity. Qed.
Lemma Parses_pointer_loop {A} v (f : A -> list cell) (m : rd A) l :
  Forall (fun o => match o with Some x => Parses v (f x) m x | None => True end) l ->
  forall done, Parses v (slots f l)
    (pointer_loop m (map flag_of (done ++ l)) (length done) (length l)) l.
Proof.
  induction 1 as [|o l Ho Hl IH]; intros done; cbn [length pointer_loop]; [apply Parses_ret|].
  assert (Ei : py_index (map flag_of (done ++ o :: l)) (length done) = Ok (flag_of o)).
  { unfold py_index. rewrite nth_error_map, nth_error_app2, Nat.sub_diag by lia. reflexivity. }
  eapply Parses_lift_bind; [exact Ei|]. apply Parses_note; [destruct o; reflexivity|].
  change (slots f (o :: l)) with (opt_cells f o ++ slots f l).
  apply Parses_bind with (a := o).
  - destruct o as [x|]; cbn [flag_of opt_cells].
    + change (truthy 1) with true. cbv iota. apply Parses_nil_r. eapply Parses_bind; [exact Ho|apply Parses_ret].
    + change (truthy 0) with false. cbv iota. apply Parses_ret.
  - apply Parses_nil_r. apply Parses_bind with (a := l); [|apply Parses_ret].
    specialize (IH (done ++ [o])). rewrite <- app_assoc, app_length in IH. cbn [app length] in IH.
    rewrite Nat.add_1_r in IH. exact IH.
Qed.
Lemma Parses_pointers {A} v (f : A -> list cell) (m : rd A) n l :
  n = count l ->
  Forall (fun o => match o with Some x => Parses v (f x) m x | None => True end) l ->
  Parses v (slots f l) (read_class_array_with_pointers m n (map flag_of l)) l.
Proof.
  intros E H. unfold read_class_array_with_pointers. apply Parses_note; [unfold count in E; lia|].
  replace (Z.to_nat n) with (length l) by (unfold count in E; lia).
  apply (Parses_pointer_loop v f m l H []).
Qed.

(** ** struct.unpack *)
Lemma struct_cells_vals_ok items cs :
  struct_cells items cs -> cells_ok cs -> vals_ok items (map val_of cs).
Proof.
  unfold struct_cells. revert items; induction cs as [|c cs IH]; intros [|k items]; cbn [map]; try discriminate.
  - reflexivity.
  - intros [= Hk Hc] Ho. apply cells_ok_cons in Ho. destruct Ho as [H1 H2].
    cbn [vals_ok]. split; [|apply IH; assumption].
    destruct c; cbn [fc_of] in Hk; try discriminate; injection Hk as <-; cbn [val_of val_ok fc_size].
    + rewrite (int_cell_ok I8 1 true) in H1 by constructor. exact H1.
    + rewrite (int_cell_ok I16 2 true) in H1 by constructor. exact H1.
    + rewrite (int_cell_ok I32 4 true) in H1 by constructor. exact H1.
    + exact H1.
Qed.
Lemma Parses_struct v fmt items n cs :
  parse_fmt fmt = Some items -> n = fmt_size items -> struct_cells items cs ->
  Parses v cs (read_struct fmt n) (map val_of cs).
Proof.
  intros Hf -> Hs Hc.
  destruct (struct_roundtrip fmt items _ Hf (struct_cells_vals_ok _ _ Hs Hc)) as (bs & E & L & U & S).
  pose proof (Lay_struct fmt items _ cs Hf eq_refl Hs) as HL. rewrite E in HL. apply Lay_ok in HL.
  exists bs. split; [exact HL|]. intros pre post ls.
  unfold read_struct, bind. unfold calcsize in L. rewrite Hf in L. rewrite consume_at by exact L.
  unfold note, lift. rewrite U, S. reflexivity.
Qed.
Lemma Parses_struct_bind {B} v fmt items n cs (k : list pyval -> rd B) x :
  parse_fmt fmt = Some items -> n = fmt_size items ->
  struct_cells items (firstn (length items) cs) ->
  Parses v (skipn (length items) cs) (k (map val_of (firstn (length items) cs))) x ->
  Parses v cs (bind (read_struct fmt n) k) x.
Proof.
  intros Hf Hn Hs H. rewrite <- (firstn_skipn (length items) cs).
  eapply Parses_bind; [|exact H]. eapply Parses_struct; eassumption.
Qed.
