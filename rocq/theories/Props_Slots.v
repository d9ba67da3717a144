(** * C22 (empty slots) and C35 (version of a data file). *)
From Verif Require Import Base PyInt PyFloat PyStr PyStruct DataTypes Versions Common Wire Layout Shape.
From Verif Require Import Codec CodecP CodecF CodecC P_Simple P_More P_Unit P_UnitR P_Civ P_DatFile Spec Theory Sample Stored Update.
From Verif Require Import M_Sound M_PlayerColour M_Effect M_TerrainRestriction M_Graphic
  M_TerrainBlock M_RandomMaps M_Task M_UnitHeaders M_Unit M_Civ M_Tech M_TechTree M_DatFile.
From Coq Require Import String ZifyBool.
Open Scope Z_scope.
Local Open Scope list_scope.
Local Notation length := List.length.

(** ** C22 *)
(** Slot [i] is empty iff entry [i] of the pointer table is 0; there are as many slots as entries. *)
Definition empty_iff_zero {A} (ps : list Z) (l : list (option A)) : Prop :=
  length l = length ps /\ forall i, nth_error l i = Some None <-> nth_error ps i = Some 0.

(** The signed 32-bit integers stored from offset [off] on (bytes missing at the end of the
    buffer count as missing: the integer is then made of the bytes that are left). *)
Definition stored_i32 (content : bytes) (off : nat) (n : nat) : list Z :=
  map (fun i => int_from_bytes (slice content (off + 4 * i) 4) true) (seq 0 n).

Lemma nth_error_cons {A} (a : A) l i : nth_error (a :: l) i = match i with O => Some a | S i => nth_error l i end.
Proof. destruct i; reflexivity. Qed.

Lemma bind_inv {A B} (m : rd A) (k : A -> rd B) h y h' :
  bind m k h = Ok (y, h') -> exists x h1, m h = Ok (x, h1) /\ k x h1 = Ok (y, h').
Proof. unfold bind. destruct (m h) as [[x h1]|]; [eauto|discriminate]. Qed.
Lemma note_inv c l h y h' : note c l h = Ok (y, h') ->
  h_content h' = h_content h /\ h_offset h' = h_offset h /\ h_version h' = h_version h.
Proof. unfold note. intros [= _ <-]. destruct c; auto. Qed.

Lemma skipn_cons {A} (l : list A) : forall i p, nth_error l i = Some p -> skipn i l = p :: skipn (S i) l.
Proof. induction l as [|a l IH]; intros [|i] p; cbn; try discriminate; [congruence|]. apply IH. Qed.
Lemma pointer_loop_slots {A} (fb : rd A) ps : forall k i h l h',
  pointer_loop fb ps i k h = Ok (l, h') -> exists r, skipn i ps = r ++ skipn (i + k) ps /\ length r = k /\ empty_iff_zero r l.
Proof.
  induction k as [|k IH]; intros i h l h' E; cbn [pointer_loop] in E.
  - injection E as <- <-. exists []. rewrite Nat.add_0_r. split; [reflexivity|]. split; [reflexivity|].
    split; [reflexivity|]. intros [|j]; split; discriminate.
  - apply bind_inv in E as (p & h1 & E1 & E). unfold lift, py_index in E1.
    destruct (nth_error ps i) as [p'|] eqn:N; [|discriminate]. injection E1 as -> <-.
    apply bind_inv in E as (u & h2 & _ & E). apply bind_inv in E as (o & h3 & E3 & E).
    apply bind_inv in E as (r & h4 & E4 & E). injection E as <- <-.
    apply IH in E4 as (q & Q1 & Q2 & Q3 & Q4). exists (p :: q).
    rewrite (skipn_cons _ _ _ N), Q1. split; [cbn [app]; do 3 f_equal; lia|].
    split; [cbn; lia|]. split; [cbn; congruence|].
    intros j. rewrite !nth_error_cons. destruct j as [|j]; [|apply Q4].
    unfold truthy in E3. destruct (Z.eqb_spec p 0) as [->|Hp]; cbn [negb] in E3.
    + injection E3 as <- _. split; reflexivity.
    + apply bind_inv in E3 as (e & h5 & _ & E3). injection E3 as <- _. split; [discriminate|].
      intros [= ->]. congruence.
Qed.
Theorem C22_reader : forall A (fb : rd A) size ps h l h', length ps = Z.to_nat size ->
  read_class_array_with_pointers fb size ps h = Ok (l, h') -> empty_iff_zero ps l.
Proof.
  intros A fb size ps h l h' L E. unfold read_class_array_with_pointers in E.
  apply bind_inv in E as (u & h1 & _ & E). apply pointer_loop_slots in E as (r & E & Lr & R).
  cbn [skipn Nat.add] in E. rewrite <- L, skipn_all, app_nil_r in E. subst r. exact R.
Qed.

Lemma read_i32_inv h z h' : read_int_32 true h = Ok (z, h') ->
  z = int_from_bytes (slice (h_content h) (h_offset h) 4) true /\
  h_content h' = h_content h /\ h_offset h' = (h_offset h + 4)%nat.
Proof.
  unfold read_int_32, consume_range, consume_slice, bind, note, ret, Int_from_bytes. intros [= <- <-].
  split; [reflexivity|]. destruct (Nat.ltb _ _); auto.
Qed.
Lemma loop_i32_inv : forall n h l h', loop n (read_int_32 true) h = Ok (l, h') ->
  l = stored_i32 (h_content h) (h_offset h) n /\ h_content h' = h_content h /\ h_offset h' = (h_offset h + 4 * n)%nat.
Proof.
  induction n as [|n IH]; intros h l h' E; cbn [loop] in E.
  - injection E as <- <-. split; [reflexivity|]. split; [reflexivity|lia].
  - apply bind_inv in E as (z & h1 & E1 & E). apply bind_inv in E as (r & h2 & E2 & E). injection E as <- <-.
    apply read_i32_inv in E1 as (-> & C1 & O1). apply IH in E2 as (-> & C2 & O2).
    rewrite C1 in *. rewrite O1 in *. split; [|split; [congruence|lia]].
    unfold stored_i32. rewrite <- cons_seq, <- seq_shift. cbn [map]. rewrite map_map. f_equal.
    + do 2 f_equal. lia.
    + apply map_ext. intros i. do 2 f_equal. lia.
Qed.
Lemma array_i32_inv n h l h' : read_int_32_array n h = Ok (l, h') ->
  l = stored_i32 (h_content h) (h_offset h) (Z.to_nat n) /\ h_content h' = h_content h /\ length l = Z.to_nat n.
Proof.
  unfold read_int_32_array, for_range. intros E. apply bind_inv in E as (u & h1 & E1 & E).
  apply note_inv in E1 as (C & O & _). apply loop_i32_inv in E as (-> & C' & O'). rewrite C, O.
  split; [reflexivity|]. split; [congruence|]. unfold stored_i32. rewrite map_length, seq_length. reflexivity.
Qed.
Lemma pointers_follow {A} (fb : rd A) n ps h1 h2 l h3 : read_int_32_array n h1 = Ok (ps, h2) ->
  read_class_array_with_pointers fb n ps h2 = Ok (l, h3) ->
  empty_iff_zero (stored_i32 (h_content h1) (h_offset h1) (length l)) l.
Proof.
  intros E1 E2. apply array_i32_inv in E1 as (-> & _ & L).
  apply C22_reader in E2; [|exact L]. destruct E2 as [L' R]. rewrite L', L. split; assumption.
Qed.

(** Offsets behind the fields in front of the unit table. *)
Definition moves {A} (m : rd A) (n : nat) : Prop := forall h x h', m h = Ok (x, h') ->
  h_content h' = h_content h /\ h_offset h' = (h_offset h + n)%nat.
Lemma consume_moves n : moves (consume_range n) n.
Proof.
  intros h x h'. unfold consume_range, consume_slice, bind, note, ret. intros [= _ <-]. destruct (Nat.ltb _ _); auto.
Qed.
Lemma u8_moves : moves read_int_8 1.
Proof. intros h x h' E. apply bind_inv in E as (b & h1 & E1 & [= _ <-]). exact (consume_moves _ _ _ _ E1). Qed.
Lemma i16_moves s : moves (read_int_16 s) 2.
Proof. intros h x h' E. apply bind_inv in E as (b & h1 & E1 & [= _ <-]). exact (consume_moves _ _ _ _ E1). Qed.
Lemma float_moves : moves read_float 4.
Proof.
  intros h x h' E. apply bind_inv in E as (b & h1 & E1 & E). apply bind_inv in E as (u & h2 & E2 & E).
  apply consume_moves in E1. apply note_inv in E2. unfold lift in E. destruct (Float_from_bytes _ _); [|discriminate]. injection E as _ <-.
  destruct E1, E2 as (? & ? & _). split; congruence.
Qed.
Lemma floats_move n h l h' : read_float_array n h = Ok (l, h') ->
  h_content h' = h_content h /\ h_offset h' = (h_offset h + 4 * length l)%nat.
Proof.
  unfold read_float_array, for_range. intros E. apply bind_inv in E as (u & h1 & E1 & E). apply note_inv in E1 as (C & O & _).
  rewrite <- C, <- O. clear C O. revert h1 l h' E. induction (Z.to_nat n) as [|k IH]; intros h1 l h' E; cbn [loop] in E.
  - injection E as <- <-. split; [reflexivity|cbn; lia].
  - apply bind_inv in E as (z & h2 & E1 & E). apply bind_inv in E as (r & h3 & E2 & E). injection E as <- <-.
    apply float_moves in E1. apply IH in E2. destruct E1 as [C1 O1], E2 as [C2 O2]. rewrite O1 in O2. split; [congruence|cbn [length]; lia].
Qed.
(** Bytes of a length-prefixed text at [off]: the marker, the length and the text. *)
Definition text_size (content : bytes) (off : nat) : nat :=
  (4 + Z.to_nat (int_from_bytes (slice content (off + 2) 2) false))%nat.
Lemma text_moves h x h' : read_debug_string h = Ok (x, h') ->
  h_content h' = h_content h /\ h_offset h' = (h_offset h + text_size (h_content h) (h_offset h))%nat.
Proof.
  intros E. apply bind_inv in E as (m & h1 & E1 & E). apply bind_inv in E as (u & h2 & E2 & E).
  apply bind_inv in E as (n & h3 & E3 & E). apply bind_inv in E as (b & h4 & E4 & E).
  apply bind_inv in E as (u' & h5 & E5 & E).
  apply i16_moves in E1. unfold lift in E2. destruct (py_assert _); [|discriminate]. injection E2 as _ <-.
  assert (N : n = int_from_bytes (slice (h_content h1) (h_offset h1) 2) false).
  { revert E3. unfold read_int_16, consume_range, consume_slice, bind, note, ret, Int_from_bytes. intros [= <- _]. reflexivity. }
  apply i16_moves in E3. apply consume_moves in E4. apply note_inv in E5.
  unfold lift in E. destruct (String_from_bytes b); [|discriminate]. injection E as _ <-.
  destruct E1 as [C1 O1], E3 as [C3 O3], E4 as [C4 O4], E5 as (C5 & O5 & _). unfold text_size. rewrite C1, O1 in N. subst n.
  split; [congruence|]. rewrite O5, O4, O3, O1. lia.
Qed.

(** Where the unit pointer table of a civ with [n] resources starts: behind player_type (1 byte),
    name, three 16-bit fields, the resources, icon_set (1 byte) and the 16-bit unit count. *)
Definition unit_table (content : bytes) (off n : nat) : nat :=
  (off + 1 + text_size content (off + 1) + 6 + 4 * n + 1 + 2)%nat.
(** A loaded unit slot is empty iff its stored pointer is zero. *)
Theorem C22_load_civ : forall h c h', Civ_from_bytes h = Ok (c, h') ->
  empty_iff_zero (stored_i32 (h_content h) (unit_table (h_content h) (h_offset h) (length (Civ_resources c)))
                             (length (Civ_units c))) (Civ_units c).
Proof.
  intros h c h' E. unfold Civ_from_bytes in E.
  apply bind_inv in E as (x1 & h1 & E1 & E). apply bind_inv in E as (x2 & h2 & E2 & E).
  apply bind_inv in E as (x3 & h3 & E3 & E). apply bind_inv in E as (x4 & h4 & E4 & E).
  apply bind_inv in E as (x5 & h5 & E5 & E). apply bind_inv in E as (x6 & h6 & E6 & E).
  apply bind_inv in E as (x7 & h7 & E7 & E). apply bind_inv in E as (x8 & h8 & E8 & E).
  apply bind_inv in E as (x9 & h9 & E9 & E). apply bind_inv in E as (x10 & h10 & E10 & E).
  injection E as <- <-. cbn [Civ_units Civ_resources].
  pose proof (pointers_follow _ _ _ _ _ _ _ E9 E10) as R.
  apply u8_moves in E1. apply text_moves in E2. apply i16_moves in E3, E4, E5, E8. apply floats_move in E6. apply u8_moves in E7.
  destruct E1 as [C1 O1], E2 as [C2 O2], E3 as [C3 O3], E4 as [C4 O4], E5 as [C5 O5], E6 as [C6 O6], E7 as [C7 O7], E8 as [C8 O8].
  replace (h_content h) with (h_content h8) by congruence.
  replace (unit_table (h_content h8) (h_offset h) (length x6)) with (h_offset h8); [exact R|].
  unfold unit_table. replace (h_content h8) with (h_content h1) by congruence. rewrite <- O1. lia.
Qed.
Definition keeps {A} (m : rd A) : Prop := forall h x h', m h = Ok (x, h') -> h_content h' = h_content h.
Lemma keeps_bind {A B} (m : rd A) (k : A -> rd B) : keeps m -> (forall x, keeps (k x)) -> keeps (bind m k).
Proof. intros H1 H2 h x h' E. apply bind_inv in E as (y & h1 & E1 & E2). apply H1 in E1. apply H2 in E2. congruence. Qed.
Lemma keeps_moves {A} (m : rd A) n : moves m n -> keeps m.
Proof. intros H h x h' E. apply H in E. apply E. Qed.
Lemma keeps_lift {A} (r : res A) : keeps (lift r).
Proof. intros h x h' E. unfold lift in E. destruct r; [|discriminate]. injection E as _ <-. reflexivity. Qed.
Lemma keeps_ret {A} (a : A) : keeps (ret a).
Proof. intros h x h' [= _ <-]. reflexivity. Qed.
Lemma keeps_note c l : keeps (note c l).
Proof. intros h x h' E. apply note_inv in E. apply E. Qed.
Lemma keeps_loop {A} (m : rd A) n : keeps m -> keeps (loop n m).
Proof. intros H. induction n; cbn [loop]; [apply keeps_ret|]. apply keeps_bind; [exact H|]. intros e. apply keeps_bind; [exact IHn|]. intros. apply keeps_ret. Qed.
Lemma keeps_for {A} (m : rd A) n : keeps m -> keeps (for_range n m).
Proof. intros H. apply keeps_bind; [apply keeps_note|]. intros _. apply keeps_loop, H. Qed.
Lemma keeps_codec {A} {tb} {fb : rd A} {lay shape arity} {C : Codec tb fb lay shape arity} : keeps fb.
Proof. intros h x h' E. apply codec_only_moves in E. apply E. Qed.
Lemma keeps_restriction n : keeps (TerrainRestriction_from_bytes_with_count n).
Proof.
  unfold TerrainRestriction_from_bytes_with_count. apply keeps_bind; [apply keeps_for, (keeps_moves _ _ float_moves)|].
  intros a. apply keeps_bind; [apply keeps_for, keeps_codec|]. intros b. apply keeps_ret.
Qed.
Lemma keeps_set v : keeps (set_version v).
Proof. intros h x h' [= _ <-]. reflexivity. Qed.
Lemma keeps_string n : keeps (read_string n).
Proof. apply keeps_bind; [apply (keeps_moves _ _ (consume_moves n))|]. intros. apply keeps_lift. Qed.
Lemma keeps_i32s n : keeps (read_int_32_array n).
Proof. intros h x h' E. apply array_i32_inv in E. apply E. Qed.

(** A loaded graphic slot is empty iff its stored pointer is zero: the pointers are the 32-bit
    integers behind the 16-bit count of graphics, which is somewhere in the file. *)
Theorem C22_load_graphics : forall bs x, from_bytes bs = Ok x ->
  exists off, Z.max 0 (int_from_bytes (slice bs off 2) true) = count (DatFile_graphics x) /\
    empty_iff_zero (stored_i32 bs (off + 2) (length (DatFile_graphics x))) (DatFile_graphics x).
Proof.
  intros bs x F. unfold from_bytes in F. destruct (DatFile_from_bytes (new_handler bs)) as [[y h]|] eqn:E; [|discriminate].
  injection F as ->. unfold DatFile_from_bytes in E.
  apply bind_inv in E as (a1 & h1 & E1 & E). apply bind_inv in E as (a2 & h2 & E2 & E). apply bind_inv in E as (a3 & h3 & E3 & E).
  apply bind_inv in E as (a4 & h4 & E4 & E). apply bind_inv in E as (a5 & h5 & E5 & E). apply bind_inv in E as (a6 & h6 & E6 & E).
  apply bind_inv in E as (a7 & h7 & E7 & E). apply bind_inv in E as (a8 & h8 & E8 & E). apply bind_inv in E as (a9 & h9 & E9 & E).
  apply bind_inv in E as (a10 & h10 & E10 & E). apply bind_inv in E as (a11 & h11 & E11 & E). apply bind_inv in E as (a12 & h12 & E12 & E).
  apply bind_inv in E as (a13 & h13 & E13 & E). apply bind_inv in E as (n & h14 & E14 & E). apply bind_inv in E as (ps & h15 & E15 & E).
  apply bind_inv in E as (gs & h16 & E16 & E).
  repeat match type of E with bind _ _ _ = Ok _ =>
    let a := fresh "a" in let g := fresh "h" in let H := fresh "E" in apply bind_inv in E as (a & g & H & E); clear H end.
  injection E as <- <-. cbn [DatFile_graphics].
  apply keeps_string in E1. apply keeps_lift in E2. apply keeps_set in E3.
  apply (keeps_moves _ _ (i16_moves true)) in E4, E5, E10, E12. apply keeps_i32s in E6, E7.
  apply (keeps_for _ _ (keeps_restriction a5)) in E8. apply keeps_note in E9.
  apply (keeps_for _ _ keeps_codec) in E11, E13.
  assert (C : h_content h13 = bs) by (etransitivity; [|exact E1]; congruence). clear E1 E2 E3 E4 E5 E6 E7 E8 E9 E10 E11 E12 E13.
  assert (N : n = int_from_bytes (slice (h_content h13) (h_offset h13) 2) true).
  { revert E14. unfold read_int_16, consume_range, consume_slice, bind, note, ret, Int_from_bytes. intros [= <- _]. reflexivity. }
  apply i16_moves in E14 as [C' O']. pose proof (pointers_follow _ _ _ _ _ _ _ E15 E16) as R.
  apply array_i32_inv in E15 as (_ & _ & L). apply C22_reader in E16; [|exact L]. destruct E16 as [L' _].
  rewrite C', O', C in R. exists (h_offset h13). rewrite <- C at 1. rewrite <- N. split; [|exact R].
  unfold count. rewrite L', L. lia.
Qed.

(** Writing: the pointer of a slot is 0 if it is empty and 1 otherwise. *)
Definition pointer_bytes {A} (l : list (option A)) : bytes :=
  flat_map (fun o => match o with None => little_endian 4 0 | Some _ => little_endian 4 1 end) l.
Lemma wapp_inv a b bs : a +++ b = Ok bs -> exists x y, a = Ok x /\ b = Ok y /\ bs = x ++ y.
Proof. destruct a as [x|]; [|discriminate]. destruct b as [y|]; [|discriminate]. intros [= <-]. eauto. Qed.
Lemma join_split ws1 w ws2 bs : join (ws1 ++ w :: ws2) = Ok bs ->
  exists a b c, join ws1 = Ok a /\ w = Ok b /\ join ws2 = Ok c /\ bs = a ++ b ++ c.
Proof.
  rewrite join_app, join_cons. intros E. apply wapp_inv in E as (a & bc & E1 & E & ->).
  apply wapp_inv in E as (b & c & E2 & E3 & ->). exists a, b, c. auto.
Qed.
Lemma pointers_written {A} (l : list (option A)) :
  write_int_32_array (map (fun o => match o with None => 0 | Some _ => 1 end) l) = Ok (pointer_bytes l).
Proof.
  unfold write_int_32_array. induction l as [|o l IH]; [reflexivity|]. cbn [map]. rewrite join_cons, IH.
  destruct o; reflexivity.
Qed.
Theorem C22_save_civ : forall c v bs, Civ_to_bytes c v = Ok bs ->
  exists pre units, bs = pre ++ pointer_bytes (Civ_units c) ++ units /\
    write_class_array Unit_to_bytes (Civ_units c) v = Ok units.
Proof.
  intros c v bs E. unfold Civ_to_bytes in E.
  match type of E with join [?a1;?a2;?a3;?a4;?a5;?a6;?a7;?a8;?w;?u] = _ => change (join ([a1;a2;a3;a4;a5;a6;a7;a8] ++ w :: [u]) = Ok bs) in E end.
  apply join_split in E as (a & b & d & _ & E1 & E2 & ->). unfold Civ_unit_pointers in E1. rewrite pointers_written in E1.
  assert (b = pointer_bytes (Civ_units c)) by congruence. subst b.
  exists a, d. split; [reflexivity|]. rewrite join_cons in E2. apply wapp_inv in E2 as (p & q & -> & [= <-] & ->). rewrite app_nil_r. reflexivity.
Qed.

(** ** C35 *)
(** The encoding of [x] for version [v] appears in [bs]. *)
Definition contains (part bs : bytes) : Prop := exists pre post, bs = pre ++ part ++ post.
(** The encodings of the records [l] for version [v] appear in [bs], one behind the other. *)
Definition encoded {A} (tb : A -> Version -> res bytes) (v : Version) (l : list A) (bs : bytes) : Prop :=
  exists parts, Forall2 (fun x p => tb x v = Ok p) l parts /\ contains (List.concat parts) bs.

Lemma join_parts {A} (f : A -> res bytes) l bs : join (map f l) = Ok bs ->
  exists parts, Forall2 (fun x p => f x = Ok p) l parts /\ bs = List.concat parts.
Proof.
  revert bs. induction l as [|x l IH]; intros bs E; cbn [map] in E.
  - injection E as <-. exists []. split; [constructor|reflexivity].
  - rewrite join_cons in E. apply wapp_inv in E as (a & b & E1 & E2 & ->). apply IH in E2 as (parts & F & ->).
    exists (a :: parts). split; [constructor; assumption|reflexivity].
Qed.
Lemma contains_app_l p a b : contains p a -> contains p (a ++ b).
Proof. intros (x & y & ->). exists x, (y ++ b). rewrite <- !app_assoc. reflexivity. Qed.
Lemma contains_app_r p a b : contains p b -> contains p (a ++ b).
Proof. intros (x & y & ->). exists (a ++ x), y. rewrite <- !app_assoc. reflexivity. Qed.
Lemma contains_refl p : contains p p.
Proof. exists [], []. rewrite app_nil_r. reflexivity. Qed.
Lemma join_contains ws bs : join ws = Ok bs -> Forall (fun w => exists p, w = Ok p /\ contains p bs) ws.
Proof.
  revert bs. induction ws as [|w ws IH]; intros bs E; [constructor|]. rewrite join_cons in E.
  apply wapp_inv in E as (a & b & -> & E2 & ->). constructor.
  - exists a. split; [reflexivity|]. apply contains_app_l, contains_refl.
  - apply IH in E2. eapply Forall_impl; [|exact E2]. intros w (p & -> & Hp). exists p. split; [reflexivity|]. apply contains_app_r, Hp.
Qed.
Lemma array_encoded {A} (tb : A -> Version -> res bytes) v l bs :
  (exists p, write_class_array tb (map Some l) v = Ok p /\ contains p bs) -> encoded tb v l bs.
Proof.
  intros (p & E & C). rewrite write_class_array_some in E. apply join_parts in E as (parts & F & ->). exists parts. auto.
Qed.

(** The argument is ignored. *)
Theorem C35_argument : forall x v w, DatFile_to_bytes x v = DatFile_to_bytes x w.
Proof. reflexivity. Qed.
Lemma slots_encoded {A} (tb : A -> Version -> res bytes) v l bs :
  (exists p, write_class_array tb l v = Ok p /\ contains p bs) -> encoded tb v (flat_map opt_list l) bs.
Proof.
  intros (p & E & C). rewrite write_class_array_eq in E.
  replace (flat_map (fun o => match o with Some a => [tb a v] | None => [] end) l)
    with (map (fun a => tb a v) (flat_map opt_list l)) in E.
  - apply join_parts in E as (parts & F & ->). exists parts. auto.
  - clear. induction l as [|[a|] l IH]; cbn; congruence.
Qed.
Lemma class_encoded {A} (tb : A -> Version -> res bytes) v a bs :
  (exists p, write_class tb a v = Ok p /\ contains p bs) -> encoded tb v [a] bs.
Proof.
  intros (p & E & C). rewrite write_class_eq in E. exists [p]. split; [constructor; [exact E|constructor]|].
  cbn. rewrite app_nil_r. exact C.
Qed.
(** Every contained record is encoded for the version stored in the object, whatever the argument. *)
Theorem C35_records : forall x w bs, DatFile_to_bytes x w = Ok bs ->
  exists v, file_version (DatFile_version x) = Some v /\
    encoded TerrainRestriction_to_bytes v (DatFile_terrain_restrictions x) bs /\
    encoded PlayerColour_to_bytes v (DatFile_player_colours x) bs /\
    encoded Sound_to_bytes v (DatFile_sounds x) bs /\
    encoded Graphic_to_bytes v (flat_map opt_list (DatFile_graphics x)) bs /\
    encoded TerrainBlock_to_bytes v [DatFile_terrain_block x] bs /\
    encoded RandomMaps_to_bytes v [DatFile_random_maps x] bs /\
    encoded Effect_to_bytes v (DatFile_effects x) bs /\
    encoded UnitHeaders_to_bytes v (DatFile_unit_headers x) bs /\
    encoded Civ_to_bytes v (DatFile_civs x) bs /\
    encoded Tech_to_bytes v (DatFile_techs x) bs /\
    encoded TechTree_to_bytes v [DatFile_tech_tree x] bs /\
    contains (pointer_bytes (DatFile_graphics x)) bs.
Proof.
  intros x w bs E. unfold DatFile_to_bytes in E. rewrite version_lookup_spec in E.
  destruct (file_version (DatFile_version x)) as [v|]; [|discriminate]. exists v. split; [reflexivity|].
  cbn [rbind] in E. cbv zeta in E.
  destruct (py_assert _); [|discriminate]. cbn [rbind] in E.
  match type of E with rbind ?m _ = _ => destruct m as [t|]; [|discriminate] end. cbn [rbind] in E.
  apply join_contains in E.
  repeat match type of E with Forall _ (_ :: _) => apply Forall_cons_iff in E as [? E] end. clear E.
  split; [apply array_encoded; assumption|]. split; [apply array_encoded; assumption|].
  split; [apply array_encoded; assumption|]. split; [apply slots_encoded; assumption|].
  split; [apply class_encoded; assumption|]. split; [apply class_encoded; assumption|].
  split; [apply array_encoded; assumption|]. split; [apply array_encoded; assumption|].
  split; [apply array_encoded; assumption|]. split; [apply array_encoded; assumption|].
  split; [apply class_encoded; assumption|].
  match goal with H : exists p, write_int_32_array (DatFile_graphic_pointers x) = Ok p /\ _ |- _ => destruct H as (p & Hp & C) end.
  unfold DatFile_graphic_pointers in Hp. rewrite pointers_written in Hp.
  assert (p = pointer_bytes (DatFile_graphics x)) by congruence. subst p. exact C.
Qed.
(** A version string that is not enumerated is refused when saving ... *)
Theorem C35_save_unknown : forall x w, ~ In (DatFile_version x) (map version_value all_versions) ->
  DatFile_to_bytes x w = Err ValueError.
Proof.
  intros x w H. unfold DatFile_to_bytes, version_lookup.
  destruct (find _ all_versions) as [v|] eqn:F; [|reflexivity]. exfalso. apply H.
  apply find_some in F as [I F]. unfold str_eqb in F. destruct (str_compare (version_value v) (DatFile_version x)) eqn:C; try discriminate.
  apply str_compare_eq in C. rewrite <- C. apply in_map, I.
Qed.
(** ... and when loading, before anything else is looked at. *)
Theorem C35_load_unknown : forall bs s, String_from_bytes (firstn 8 bs) = Ok s ->
  ~ In s (map version_value all_versions) -> from_bytes bs = Err ValueError.
Proof.
  intros bs s S H. unfold from_bytes, DatFile_from_bytes, read_string, consume_range, consume_slice, new_handler, bind, lift, note, ret.
  cbn [h_content h_offset h_version h_losses]. unfold slice. cbn [skipn]. rewrite S.
  unfold version_lookup.
  destruct (find _ all_versions) as [v|] eqn:F; [|reflexivity]. exfalso. apply H.
  apply find_some in F as [I F]. unfold str_eqb in F. destruct (str_compare (version_value v) s) eqn:C; try discriminate.
  apply str_compare_eq in C. rewrite <- C. apply in_map, I.
Qed.
(** A loaded file carries the version in its first eight bytes, and its records were read for
    that version: its unit tables obey the version (see C17, C20). *)
Theorem C35_load_version : forall bs x, from_bytes bs = Ok x ->
  String_from_bytes (firstn 8 bs) = Ok (DatFile_version x) /\
  exists v, file_version (DatFile_version x) = Some v /\ v <> UNDEFINED /\ DatFile_version x = version_value v.
Proof.
  intros bs x F. unfold from_bytes in F. destruct (DatFile_from_bytes (new_handler bs)) as [[y h]|] eqn:E; [|discriminate].
  injection F as ->. pose proof (DatFile_reads _ _ _ E) as (_ & _ & Ev & W & _). split.
  - unfold DatFile_from_bytes in E. apply bind_inv in E as (a1 & h1 & E1 & E).
    repeat match type of E with bind _ _ _ = Ok _ =>
      let a := fresh "a" in let g := fresh "h" in let H := fresh "E" in apply bind_inv in E as (a & g & H & E); clear H end.
    injection E as <- <-. cbn [DatFile_version]. revert E1.
    unfold read_string, consume_range, consume_slice, new_handler, bind, lift, note, ret.
    cbn [h_content h_offset h_version h_losses]. unfold slice. cbn [skipn].
    destruct (String_from_bytes (firstn 8 bs)); congruence.
  - exists (h_version h). split; [exact Ev|]. pose proof Ev as Ev'. unfold file_version in Ev'.
    apply find_some in Ev' as [_ Q]. destruct (list_eq_dec Z.eq_dec _ _) as [Q'|]; [|discriminate]. split; [|congruence].
    intros U. destruct W as [W _]. unfold DatFile_layout in W. rewrite Ev in W. unfold DatFile_body in W.
    apply cells_ok_guard in W as [_ W]. cbn [app] in W. apply cells_ok_cons in W as [W _]. rewrite <- Q', U in W. discriminate W.
Qed.

(** Slots survive saving and loading. *)
Definition empties {A} (l : list (option A)) : list bool := map (fun o => match o with None => true | Some _ => false end) l.
Theorem C22_save_graphics : forall x bs, to_bytes x = Ok bs -> contains (pointer_bytes (DatFile_graphics x)) bs.
Proof. intros x bs E. destruct (C35_records x UNDEFINED bs E) as (v & H). apply H. Qed.
Theorem C22_round_trip_civ : forall v c bs h d h', wf Civ_layout Civ_shape v c -> Civ_to_bytes c v = Ok bs ->
  h_version h = v -> (exists pre post, h_content h = pre ++ bs ++ post /\ h_offset h = length pre) ->
  Civ_from_bytes h = Ok (d, h') -> empties (Civ_units d) = empties (Civ_units c).
Proof.
  intros v c bs h d h' W E V (pre & post & C & O) F. destruct (codec_round_trip v c W) as (b & E' & D).
  rewrite E in E'. injection E' as <-. destruct h as [hc ho hv hl]. cbn in V, C, O. subst. rewrite D in F. injection F as <- _. reflexivity.
Qed.
Theorem C22_round_trip : forall bs x bs' y, from_bytes bs = Ok x -> to_bytes x = Ok bs' -> from_bytes bs' = Ok y ->
  empties (DatFile_graphics y) = empties (DatFile_graphics x) /\
  map (fun c => empties (Civ_units c)) (DatFile_civs y) = map (fun c => empties (Civ_units c)) (DatFile_civs x).
Proof.
  intros bs x bs' y F E G. destruct (dat_fixpoint bs x F) as [(b & E' & G') _]. rewrite E in E'. injection E' as <-.
  rewrite G in G'. injection G' as <-. auto.
Qed.
Example C22_case : exists bs, to_bytes (sample VER_84) = Ok bs /\ from_bytes bs = Ok (sample VER_84) /\
  map (fun c => empties (Civ_units c)) (DatFile_civs (sample VER_84)) = [[false; true; false; false; false; false]; [false; true; false; false; false; false]].
Proof.
  destruct (dat_round_trip_bytes (sample VER_84)) as (bs & E & F & _); [apply sample_wf; discriminate|].
  exists bs. split; [exact E|]. split; [exact F|]. reflexivity.
Qed.
Example C35_case : forall w, DatFile_to_bytes (with_DatFile_version (lit "VER 9.9") (sample VER_84)) w = Err ValueError.
Proof. intros w. apply C35_save_unknown. intros H. vm_compute in H. repeat (destruct H as [H|H]; [discriminate H|]). exact H. Qed.
Definition all_of_slots := (C22_reader, C22_load_civ, C22_load_graphics, C22_save_civ, C22_save_graphics, C22_round_trip_civ, C22_round_trip,
  C35_argument, C35_records, C35_save_unknown, C35_load_unknown, C35_load_version).
Print Assumptions all_of_slots.
