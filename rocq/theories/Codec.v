(** * Proof framework: readers and writers against cells.

    - [Lay w cs]: the writer [w] yields exactly the bytes of the cells [cs].
    - [Parses v cs m x]: on the bytes of representable cells [cs], wherever they are, the
      reader [m] returns [x], stops right behind them and records no loss.
    - [Fwd q v m K]: whatever [m] is run on, if it returns [x] then [K x cs] for some
      cells [cs], and in quiet runs (no loss, [q = true]) the bytes consumed are those of [cs]. *)
From Verif Require Import Base PyInt PyFloat PyStr PyStruct DataTypes Versions Common Wire Layout.
From Coq Require Import String ZifyBool.
Open Scope Z_scope.
Local Open Scope list_scope.
Local Notation length := List.length.

#[global] Arguments since : simpl never.
#[global] Arguments count : simpl never.
#[global] Arguments cell_ok : simpl never.
#[global] Arguments cell_bytes : simpl never.
#[global] Arguments cells_ok : simpl never.
#[global] Arguments encode : simpl never.
#[global] Arguments truthy : simpl never.
#[global] Arguments Z.eqb : simpl never.
#[global] Arguments Z.leb : simpl never.
#[global] Arguments Z.max : simpl never.
#[global] Arguments f64_zero : simpl never.
#[global] Arguments f64_one : simpl never.
#[global] Arguments f32_exact : simpl never.

(** ** Cells *)
Lemma little_endian_le_bytes n z : little_endian n z = le_bytes n z.
Proof.
  unfold little_endian. enough (H : forall k, map (fun i => byte_of (z / 256 ^ Z.of_nat i)) (seq k n)
    = le_bytes n (z / 256 ^ Z.of_nat k)).
  { specialize (H 0%nat). rewrite H. change (256 ^ Z.of_nat 0) with 1. rewrite Z.div_1_r. reflexivity. }
  induction n as [|n IH]; intros k; cbn [seq map le_bytes]; [reflexivity|].
  f_equal. rewrite IH, Nat2Z.inj_succ, Z.pow_succ_r by lia.
  rewrite (Z.mul_comm 256). rewrite <- Z.div_div by (try apply Z.pow_nonzero; lia). reflexivity.
Qed.

Lemma within_spec lo z hi : within lo z hi = true <-> lo <= z <= hi.
Proof. unfold within. lia. Qed.

Lemma fits_u8 z : within 0 z 255 = int_fits 1 false z.
Proof. unfold within, int_fits. change (word 1) with 256. lia. Qed.
Lemma fits_i8 z : within (-128) z 127 = int_fits 1 true z.
Proof. unfold within, int_fits. change (word 1) with 256. lia. Qed.
Lemma fits_u16 z : within 0 z 65535 = int_fits 2 false z.
Proof. unfold within, int_fits. change (word 2) with 65536. lia. Qed.
Lemma fits_i16 z : within (-32768) z 32767 = int_fits 2 true z.
Proof. unfold within, int_fits. change (word 2) with 65536. lia. Qed.
Lemma fits_u32 z : within 0 z 4294967295 = int_fits 4 false z.
Proof. unfold within, int_fits. change (word 4) with 4294967296. lia. Qed.
Lemma fits_i32 z : within (-2147483648) z 2147483647 = int_fits 4 true z.
Proof. unfold within, int_fits. change (word 4) with 4294967296. lia. Qed.

(** Integer cells with their width and signedness. *)
Inductive int_cell : (Z -> cell) -> nat -> bool -> Prop :=
| ic_u8 : int_cell U8 1 false | ic_i8 : int_cell I8 1 true
| ic_u16 : int_cell U16 2 false | ic_i16 : int_cell I16 2 true
| ic_u32 : int_cell U32 4 false | ic_i32 : int_cell I32 4 true.

Lemma int_cell_ok c n s z : int_cell c n s -> cell_ok (c z) = int_fits n s z.
Proof.
  intros H; destruct H; cbv [cell_ok];
  [apply fits_u8|apply fits_i8|apply fits_u16|apply fits_i16|apply fits_u32|apply fits_i32].
Qed.
Lemma int_cell_bytes c n s z : int_cell c n s ->
  cell_bytes (c z) = if int_fits n s z then Some (le_bytes n z) else None.
Proof.
  intros H; destruct H; cbv [cell_bytes]; rewrite little_endian_le_bytes;
  [rewrite fits_u8|rewrite fits_i8|rewrite fits_u16|rewrite fits_i16|rewrite fits_u32|rewrite fits_i32];
  reflexivity.
Qed.

Lemma cells_ok_nil : cells_ok [].
Proof. reflexivity. Qed.
Lemma cells_ok_cons c cs : cells_ok (c :: cs) <-> cell_ok c = true /\ cells_ok cs.
Proof. unfold cells_ok. cbn [forallb]. apply andb_true_iff. Qed.
Lemma cells_ok_app a b : cells_ok (a ++ b) <-> cells_ok a /\ cells_ok b.
Proof. unfold cells_ok. rewrite forallb_app. apply andb_true_iff. Qed.
Lemma cells_ok_flat_map {A} (f : A -> list cell) l :
  cells_ok (flat_map f l) <-> Forall (fun x => cells_ok (f x)) l.
Proof.
  induction l as [|x l IH]; cbn [flat_map].
  - split; [constructor|reflexivity].
  - rewrite cells_ok_app, IH. split; [intros []; constructor; auto|intros H; inversion H; auto].
Qed.
Lemma cells_ok_Refuse : ~ cells_ok [Refuse].
Proof. discriminate. Qed.
Lemma cells_ok_guard c l : cells_ok (guard c l) <-> c = true /\ cells_ok l.
Proof. destruct c; cbn [guard]; [tauto|]. split; [discriminate|intros []; discriminate]. Qed.

Definition oapp (a b : option bytes) : option bytes :=
  match a, b with Some x, Some y => Some (x ++ y) | _, _ => None end.
Lemma oapp_assoc a b c : oapp (oapp a b) c = oapp a (oapp b c).
Proof. destruct a, b, c; cbn; try reflexivity. rewrite app_assoc. reflexivity. Qed.
Lemma oapp_nil_r a : oapp a (Some []) = a.
Proof. destruct a; cbn; [rewrite app_nil_r|]; reflexivity. Qed.
Lemma oapp_nil_l a : oapp (Some []) a = a.
Proof. destruct a; reflexivity. Qed.
Lemma encode_cons c cs : encode (c :: cs) = oapp (cell_bytes c) (encode cs).
Proof. reflexivity. Qed.
Lemma encode_nil : encode [] = Some [].
Proof. reflexivity. Qed.
Lemma encode_one c : encode [c] = cell_bytes c.
Proof. rewrite encode_cons, encode_nil. apply oapp_nil_r. Qed.
Lemma encode_app a b : encode (a ++ b) = oapp (encode a) (encode b).
Proof.
  induction a as [|c a IH]; cbn [app].
  - rewrite encode_nil, oapp_nil_l. reflexivity.
  - rewrite !encode_cons, IH, oapp_assoc. reflexivity.
Qed.

Lemma flat_map_single {A} (f : A -> cell) l : flat_map (fun x => [f x]) l = map f l.
Proof. induction l; cbn; congruence. Qed.

(** [cell_ok] implies that the cell has bytes. *)
Lemma cell_ok_bytes c : cell_ok c = true -> exists bs, cell_bytes c = Some bs.
Proof.
  destruct c; cbv [cell_ok cell_bytes]; intros H; try (rewrite H; eauto; fail); try discriminate; eauto.
  - apply f32_exact_fits in H. rewrite H. eauto.
  - apply andb_true_iff in H. destruct H as [H H2]. apply andb_true_iff in H. destruct H as [H H1].
    rewrite H, H2. cbn [andb]. eauto.
  - apply andb_true_iff in H. destruct H as [H H2]. apply andb_true_iff in H. destruct H as [H H1].
    rewrite H. eauto.
Qed.
Lemma cells_ok_encode cs : cells_ok cs -> exists bs, encode cs = Some bs.
Proof.
  induction cs as [|c cs IH]; [rewrite encode_nil; eauto|].
  rewrite cells_ok_cons, encode_cons. intros [H1 H2].
  destruct (cell_ok_bytes c H1) as [b1 ->]. destruct (IH H2) as [b2 ->]. cbn [oapp]. eauto.
Qed.

(** ** Versions *)
Lemma ge_88 v : version_ge v VER_88 = since 88 v. Proof. destruct v; reflexivity. Qed.
Lemma ge_84 v : version_ge v VER_84 = since 84 v. Proof. destruct v; reflexivity. Qed.
Lemma ge_78 v : version_ge v VER_78 = since 78 v. Proof. destruct v; reflexivity. Qed.
Lemma gt_77 v : version_gt v VER_77 = since 78 v. Proof. destruct v; reflexivity. Qed.
Lemma since_88_84 v : since 88 v = true -> since 84 v = true.
Proof. destruct v; cbv; congruence. Qed.
Lemma since_84_78 v : since 84 v = true -> since 78 v = true.
Proof. destruct v; cbv; congruence. Qed.
Lemma not_since_84_88 v : since 84 v = false -> since 88 v = false.
Proof. destruct v; cbv; congruence. Qed.

Lemma len_count {A} (l : list A) : len l = count l. Proof. reflexivity. Qed.
Lemma count_nonneg {A} (l : list A) : 0 <= count l. Proof. unfold count. lia. Qed.
Lemma truthy_eqb z : truthy z = negb (z =? 0). Proof. reflexivity. Qed.

(** ** Writers *)
Definition Lay (w : res bytes) (cs : list cell) : Prop := ok_of w = encode cs.

Lemma ok_of_wapp a b : ok_of (a +++ b) = oapp (ok_of a) (ok_of b).
Proof. destruct a as [a|]; [|reflexivity]. destruct b; reflexivity. Qed.
Lemma Lay_wapp w1 w2 c1 c2 : Lay w1 c1 -> Lay w2 c2 -> Lay (w1 +++ w2) (c1 ++ c2).
Proof. unfold Lay. intros H1 H2. rewrite ok_of_wapp, encode_app, H1, H2. reflexivity. Qed.
Lemma Lay_join_nil : Lay (join []) [].
Proof. reflexivity. Qed.
Lemma Lay_join_app w ws c cs : Lay w c -> Lay (join ws) cs -> Lay (join (w :: ws)) (c ++ cs).
Proof. rewrite join_cons. apply Lay_wapp. Qed.
Lemma Lay_join_cons w ws c cs : Lay w [c] -> Lay (join ws) cs -> Lay (join (w :: ws)) (c :: cs).
Proof. intros H1 H2. exact (Lay_join_app _ _ [c] _ H1 H2). Qed.
Lemma Lay_nil_r w cs : Lay w (cs ++ []) -> Lay w cs.
Proof. rewrite app_nil_r. auto. Qed.
Lemma Lay_ok cs bs : Lay (Ok bs) cs <-> encode cs = Some bs.
Proof. unfold Lay. cbn [ok_of]. split; congruence. Qed.
Lemma Lay_Err e cs : encode cs = None -> Lay (Err e) cs.
Proof. unfold Lay. intros ->. reflexivity. Qed.
Lemma Lay_empty : Lay (Ok []) [].
Proof. reflexivity. Qed.

Lemma Lay_int c n s z : int_cell c n s -> Lay (Int_to_bytes z n s) [c z].
Proof.
  intros H. unfold Lay, Int_to_bytes, int_to_bytes. rewrite encode_one, (int_cell_bytes _ _ _ _ H).
  destruct (int_fits n s z); reflexivity.
Qed.
Lemma Lay_u8 z : Lay (write_int_8 z) [U8 z]. Proof. apply Lay_int. constructor. Qed.
Lemma Lay_i16 z : Lay (write_int_16 z true true) [I16 z]. Proof. apply (Lay_int I16). constructor. Qed.
Lemma Lay_u16 z : Lay (write_int_16 z false true) [U16 z]. Proof. apply (Lay_int U16). constructor. Qed.
Lemma Lay_i16_off z s : Lay (write_int_16 z s false) []. Proof. reflexivity. Qed.
Lemma Lay_i32 z : Lay (write_int_32 z true) [I32 z]. Proof. apply Lay_int. constructor. Qed.
Lemma Lay_u32 z : Lay (write_int_32 z false) [U32 z]. Proof. apply Lay_int. constructor. Qed.
Lemma Lay_f32 x : Lay (write_float x) [F32 x].
Proof.
  unfold Lay, write_float, Float_to_bytes. cbn [order ok_of]. rewrite encode_one.
  cbv [cell_bytes]. rewrite little_endian_le_bytes. reflexivity.
Qed.
Lemma Lay_text s : Lay (write_debug_string s) [Text s].
Proof.
  unfold Lay, write_debug_string, str_encode. rewrite encode_one. cbv [cell_bytes].
  destruct (forallb scalar s); cbn [rbind ok_of andb]; [|reflexivity].
  unfold write_int_16, Int_to_bytes, int_to_bytes. cbn [negb].
  rewrite fits_u16, little_endian_le_bytes. unfold len.
  change (int_fits 2 false 2656) with true. cbv iota.
  destruct (int_fits 2 false (Z.of_nat (length (utf8 s)))) eqn:E; [|reflexivity]. cbn [wapp rbind ok_of].
  change (le_bytes 2 2656) with [byte_of 96; byte_of 10]. reflexivity.
Qed.
Lemma Lay_padded n s : (0 < n)%nat -> Lay (write_string n s) [Padded n s].
Proof.
  intros Hn. unfold Lay, write_string, String_to_bytes, str_encode. rewrite encode_one.
  cbv [cell_bytes].
  destruct (forallb scalar s); [|reflexivity]. destruct n; [lia|]. reflexivity.
Qed.

Lemma Lay_map {A} (f : A -> res bytes) (c : A -> list cell) l :
  (forall x, In x l -> Lay (f x) (c x)) -> Lay (join (map f l)) (flat_map c l).
Proof.
  induction l as [|x l IH]; intros H; cbn [map flat_map]; [reflexivity|].
  apply Lay_join_app; [apply H; left; reflexivity|]. apply IH. intros y Hy. apply H. right. exact Hy.
Qed.
Lemma Lay_u8_array l : Lay (write_int_8_array l) (map U8 l).
Proof. rewrite <- flat_map_single. apply Lay_map. intros; apply Lay_u8. Qed.
Lemma Lay_i16_array l : Lay (write_int_16_array l) (map I16 l).
Proof. rewrite <- flat_map_single. apply Lay_map. intros; apply Lay_i16. Qed.
Lemma Lay_i32_array l : Lay (write_int_32_array l) (map I32 l).
Proof. rewrite <- flat_map_single. apply Lay_map. intros; apply Lay_i32. Qed.
Lemma Lay_f32_array l : Lay (write_float_array l) (map F32 l).
Proof. rewrite <- flat_map_single. apply Lay_map. intros; apply Lay_f32. Qed.

Lemma nonempty_ok (w : res bytes) :
  rbind w (fun r => if nonempty r then Ok r else Ok []) = w.
Proof. destruct w as [[|b r]|]; reflexivity. Qed.
Lemma write_class_eq {A} (tb : A -> Version -> res bytes) x v : write_class tb x v = tb x v.
Proof. apply nonempty_ok. Qed.
Lemma Lay_class {A} (tb : A -> Version -> res bytes) f x v :
  Lay (tb x v) (f x) -> Lay (write_class tb x v) (f x).
Proof. rewrite write_class_eq. auto. Qed.
Lemma write_class_array_eq {A} (tb : A -> Version -> res bytes) l v :
  write_class_array tb l v
  = join (flat_map (fun o => match o with Some a => [tb a v] | None => [] end) l).
Proof.
  unfold write_class_array. rewrite nonempty_ok. f_equal. apply flat_map_ext. intros [a|]; [|reflexivity].
  rewrite write_class_eq. reflexivity.
Qed.
Lemma write_class_array_some {A} (tb : A -> Version -> res bytes) l v :
  write_class_array tb (map Some l) v = join (map (fun a => tb a v) l).
Proof.
  rewrite write_class_array_eq. f_equal. induction l as [|a l IH]; cbn; [reflexivity|congruence].
Qed.
Lemma Lay_class_array {A} (tb : A -> Version -> res bytes) f l v :
  Forall (fun x => Lay (tb x v) (f x)) l -> Lay (write_class_array tb (map Some l) v) (flat_map f l).
Proof. rewrite write_class_array_some, Forall_forall. apply Lay_map. Qed.
Lemma Lay_slots {A} (tb : A -> Version -> res bytes) f l v :
  Forall (fun o => match o with Some x => Lay (tb x v) (f x) | None => True end) l ->
  Lay (write_class_array tb l v) (slots f l).
Proof.
  rewrite write_class_array_eq. induction 1 as [|[x|] l Hx Hl IH]; cbn; [reflexivity| |exact IH].
  apply Lay_wapp; assumption.
Qed.

(** struct.pack *)
Definition fc_of (c : cell) : option fc :=
  match c with I8 _ => Some Fb | I16 _ => Some Fh | I32 _ => Some Fl | F32s _ => Some Ff | _ => None end.
Definition val_of (c : cell) : pyval :=
  match c with
  | I8 z | I16 z | I32 z | U8 z | U16 z | U32 z => VInt z
  | F32s x | F32 x => VFloat x
  | _ => VInt 0
  end.
Definition struct_cells (items : list fc) (cs : list cell) : Prop := map fc_of cs = map Some items.

Lemma pack1_cell c k : fc_of c = Some k -> Lay (pack1 k (val_of c)) [c].
Proof.
  unfold Lay. rewrite encode_one. destruct c; cbn [fc_of]; intros [= <-]; cbn [pack1 val_of].
  - rewrite (int_cell_bytes I8 1 true) by constructor. destruct (int_fits 1 true z); reflexivity.
  - rewrite (int_cell_bytes I16 2 true) by constructor. destruct (int_fits 2 true z); reflexivity.
  - rewrite (int_cell_bytes I32 4 true) by constructor. destruct (int_fits 4 true z); reflexivity.
  - unfold pack_float. cbv [cell_bytes]. rewrite little_endian_le_bytes.
    destruct (f64_too_large x); reflexivity.
Qed.
Lemma Lay_pack_items items cs : struct_cells items cs -> Lay (pack_items items (map val_of cs)) cs.
Proof.
  unfold struct_cells. revert items; induction cs as [|c cs IH]; intros [|k items]; cbn [map]; try discriminate.
  - reflexivity.
  - intros [= Hk Hc]. cbn [pack_items]. apply (Lay_wapp _ _ [c]); [apply pack1_cell, Hk|apply IH, Hc].
Qed.
Lemma struct_cells_length items cs : struct_cells items cs -> length items = length cs.
Proof. intros H. apply (f_equal (@length _)) in H. rewrite !map_length in H. auto. Qed.
Lemma Lay_struct fmt items vals cs :
  parse_fmt fmt = Some items -> vals = map val_of cs -> struct_cells items cs -> Lay (struct_pack fmt vals) cs.
Proof.
  intros Hf -> H. unfold struct_pack. rewrite Hf, map_length, (struct_cells_length _ _ H), Nat.eqb_refl.
  apply Lay_pack_items, H.
Qed.
Lemma struct_pack_arity fmt items vals :
  parse_fmt fmt = Some items -> length vals <> length items -> struct_pack fmt vals = Err StructError.
Proof.
  intros Hf H. unfold struct_pack. rewrite Hf.
  destruct (Nat.eqb_spec (length items) (length vals)); [congruence|reflexivity].
Qed.

(** ** Readers, towards them *)
Definition Parses {A} (v : Version) (cs : list cell) (m : rd A) (x : A) : Prop :=
  cells_ok cs -> exists bs, encode cs = Some bs /\
    forall pre post ls,
      m (mkHandler (pre ++ bs ++ post) (length pre) v ls)
      = Ok (x, mkHandler (pre ++ bs ++ post) (length pre + length bs) v ls).

Lemma Parses_ext {A} v cs (m m' : rd A) x : (forall h, m h = m' h) -> Parses v cs m x -> Parses v cs m' x.
Proof.
  intros E H Hc. destruct (H Hc) as (bs & Eb & R). exists bs. split; [exact Eb|].
  intros pre post ls. rewrite <- E. apply R.
Qed.
Lemma Parses_ret {A} v (x : A) : Parses v [] (ret x) x.
Proof.
  intros _. exists []. split; [reflexivity|]. intros pre post ls. cbn [length].
  rewrite Nat.add_0_r. reflexivity.
Qed.
Lemma Parses_bind {A B} v c1 c2 (m : rd A) (k : A -> rd B) a b :
  Parses v c1 m a -> Parses v c2 (k a) b -> Parses v (c1 ++ c2) (bind m k) b.
Proof.
  intros H1 H2 Hc. apply cells_ok_app in Hc. destruct Hc as [Hc1 Hc2].
  destruct (H1 Hc1) as (b1 & E1 & R1). destruct (H2 Hc2) as (b2 & E2 & R2).
  exists (b1 ++ b2). rewrite encode_app, E1, E2. split; [reflexivity|].
  intros pre post ls. unfold bind.
  pose proof (R1 pre (b2 ++ post) ls) as R1'. rewrite <- app_assoc. rewrite R1'.
  pose proof (R2 (pre ++ b1) post ls) as R2'. rewrite <- app_assoc in R2'. rewrite app_length in R2'.
  rewrite R2', app_length, Nat.add_assoc. reflexivity.
Qed.
Lemma Parses_nil_r {A} v cs (m : rd A) x : Parses v (cs ++ []) m x -> Parses v cs m x.
Proof. rewrite app_nil_r. auto. Qed.
Lemma Parses_assoc {A B C} v cs (m : rd A) (k1 : A -> rd B) (k2 : B -> rd C) x :
  Parses v cs (bind m (fun a => bind (k1 a) k2)) x -> Parses v cs (bind (bind m k1) k2) x.
Proof. apply Parses_ext. intros h. unfold bind. destruct (m h) as [[a h']|]; reflexivity. Qed.
Lemma Parses_ret_bind {A B} v cs (a : A) (k : A -> rd B) x :
  Parses v cs (k a) x -> Parses v cs (bind (ret a) k) x.
Proof. apply Parses_ext. reflexivity. Qed.
Lemma Parses_lift_bind {A B} v cs r (a : A) (k : A -> rd B) x :
  r = Ok a -> Parses v cs (k a) x -> Parses v cs (bind (lift r) k) x.
Proof. intros ->. apply Parses_ext. reflexivity. Qed.
Lemma Parses_get_version {B} v cs (k : Version -> rd B) x :
  Parses v cs (k v) x -> Parses v cs (bind get_version k) x.
Proof.
  intros H Hc. destruct (H Hc) as (bs & E & R). exists bs. split; [exact E|].
  intros pre post ls. apply R.
Qed.
Lemma Parses_cons {A B} v c cs (m : rd A) (k : A -> rd B) a b :
  Parses v [c] m a -> Parses v cs (k a) b -> Parses v (c :: cs) (bind m k) b.
Proof. apply (Parses_bind v [c]). Qed.

Lemma slice_at pre bs post : slice (pre ++ bs ++ post) (length pre) (length bs) = bs.
Proof.
  unfold slice. rewrite skipn_app, skipn_all, Nat.sub_diag. cbn [skipn app].
  rewrite firstn_app, firstn_all, Nat.sub_diag. cbn [firstn]. apply app_nil_r.
Qed.
Lemma consume_at n pre bs post v ls : length bs = n ->
  consume_range n (mkHandler (pre ++ bs ++ post) (length pre) v ls)
  = Ok (bs, mkHandler (pre ++ bs ++ post) (length pre + length bs) v ls).
Proof.
  intros <-. unfold consume_range, bind, consume_slice, note, ret. cbn [h_content h_offset h_version h_losses].
  rewrite slice_at, Nat.ltb_irrefl. reflexivity.
Qed.

(** A reader that slices [n] bytes, converts them. *)
Lemma Parses_int v c n s z : int_cell c n s ->
  Parses v [c z] (bs <- consume_range n ;; ret (Int_from_bytes bs s)) z.
Proof.
  intros Hi Hc. apply cells_ok_cons in Hc. destruct Hc as [Hc _]. rewrite (int_cell_ok _ _ _ _ Hi) in Hc.
  exists (le_bytes n z). rewrite encode_one, (int_cell_bytes _ _ _ _ Hi), Hc. split; [reflexivity|].
  intros pre post ls. unfold bind. rewrite consume_at by apply le_bytes_length.
  unfold ret, Int_from_bytes. rewrite (int_roundtrip n s z Hc). reflexivity.
Qed.
Lemma Parses_u8 v z : Parses v [U8 z] read_int_8 z. Proof. apply Parses_int. constructor. Qed.
Lemma Parses_i16 v z : Parses v [I16 z] (read_int_16 true) z. Proof. apply Parses_int. constructor. Qed.
Lemma Parses_u16 v z : Parses v [U16 z] (read_int_16 false) z. Proof. apply Parses_int. constructor. Qed.
Lemma Parses_i32 v z : Parses v [I32 z] (read_int_32 true) z. Proof. apply Parses_int. constructor. Qed.
Lemma Parses_u32 v z : Parses v [U32 z] (read_int_32 false) z. Proof. apply Parses_int. constructor. Qed.
Lemma Parses_f32 v x : Parses v [F32 x] read_float x.
Proof.
  intros Hc. apply cells_ok_cons in Hc. destruct Hc as [Hc _]. cbv [cell_ok] in Hc.
  exists (le_bytes 4 (f32_of_f64 x)). rewrite encode_one. cbv [cell_bytes].
  rewrite little_endian_le_bytes. split; [reflexivity|].
  intros pre post ls. unfold read_float, bind. rewrite consume_at by apply le_bytes_length.
  unfold note, lift, Float_from_bytes. rewrite le_bytes_length, Nat.eqb_refl, le_value_le_bytes_f32.
  rewrite f32_of_f64_not_snan. cbn [andb order]. rewrite le_value_le_bytes_f32.
  rewrite f64_of_f32_of_f64 by exact Hc. reflexivity.
Qed.
