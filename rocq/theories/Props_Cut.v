(** * C30: input that ends too early. *)
From Verif Require Import Base PyInt PyFloat PyStr PyStruct DataTypes Versions Common Wire Layout Shape Spec Update.
From Verif Require Import M_Sound M_PlayerColour M_Effect M_TerrainRestriction M_Graphic
  M_TerrainBlock M_RandomMaps M_Task M_UnitHeaders M_Unit M_Civ M_Tech M_TechTree M_DatFile.
From Verif Require Import Codec CodecP CodecF CodecC P_Simple P_More P_Unit P_UnitR P_Civ P_DatFile Theory Parts RaiseR Sample Props_Errors Props_Slots.
Open Scope Z_scope.
Local Open Scope list_scope.
Local Notation length := List.length.

(** ** Fields *)
(** What is left of the data. *)
Definition left (h : handler) : bytes := skipn (h_offset h) (h_content h).
Definition moved (n : nat) (h h' : handler) : Prop :=
  h_content h' = h_content h /\ h_offset h' = (h_offset h + n)%nat /\ h_version h' = h_version h.
(** An integer field of [n] bytes never raises; its value is that of the bytes that are left, and
    it is 0 if there are none. *)
Definition reads_what_is_left (n : nat) (signed : bool) (m : rd Z) : Prop := forall h, exists z h',
  m h = Ok (z, h') /\ moved n h h' /\ z = Int_from_bytes (firstn n (left h)) signed /\ (left h = [] -> z = 0).
Lemma int_field n s : reads_what_is_left n s (bs <- consume_range n ;; ret (Int_from_bytes bs s)).
Proof.
  intros h. eexists. eexists. split; [reflexivity|]. unfold slice, left. split.
  - destruct (Nat.ltb _ _); (split; [reflexivity|split; reflexivity]).
  - split; [reflexivity|]. intros ->. rewrite firstn_nil. destruct s; reflexivity.
Qed.
Theorem C30_integers : reads_what_is_left 1 false read_int_8 /\
  (forall s, reads_what_is_left 2 s (read_int_16 s)) /\ (forall s, reads_what_is_left 4 s (read_int_32 s)).
Proof. split; [|split; intros s]; apply int_field. Qed.
(** A float field raises struct.error unless four bytes are left, a string AssertionError if its
    marker is cut off. *)
Theorem C30_float : forall h, (exists x h', read_float h = Ok (x, h')) /\ (4 <= length (left h))%nat \/
  read_float h = Err StructError /\ (length (left h) < 4)%nat.
Proof.
  intros h. unfold read_float, consume_range, consume_slice, bind, ret, note, lift, slice, Float_from_bytes. fold (left h).
  rewrite firstn_length. destruct (Nat.leb_spec 4 (length (left h))).
  - left. split; [|assumption]. rewrite Nat.min_l by assumption. cbn [Nat.eqb]. eauto.
  - right. split; [|assumption]. rewrite Nat.min_r by lia. destruct (Nat.eqb_spec (length (left h)) 4); [lia|reflexivity].
Qed.
Theorem C30_text : forall h, (length (left h) < 2)%nat -> read_debug_string h = Err AssertionError.
Proof.
  intros h L. unfold read_debug_string, read_int_16 at 1, consume_range at 1, consume_slice, bind, ret, note, lift, slice. fold (left h).
  destruct (left h) as [|a [|b l]]; [reflexivity| |cbn in L; lia]. cbn [firstn].
  assert (E : Int_from_bytes [a] false =? 2656 = false).
  { unfold Int_from_bytes, int_from_bytes. cbn [le_value]. apply Z.eqb_neq. pose proof (byte_val_range a). lia. }
  rewrite E. reflexivity.
Qed.
(** A string whose text is cut is shortened: what is left is decoded. *)
Lemma skipn_plus {A} n m (l : list A) : skipn (n + m) l = skipn m (skipn n l).
Proof. revert l; induction n as [|n IH]; intros l; [reflexivity|]. destruct l; [cbn; rewrite skipn_nil; reflexivity|]. apply IH. Qed.
Lemma consume_left n h : exists h', consume_range n h = Ok (firstn n (left h), h') /\ moved n h h' /\ left h' = skipn n (left h).
Proof.
  eexists. split; [reflexivity|]. destruct (Nat.ltb _ _); (split; [split; [reflexivity|split; reflexivity]|]);
    unfold left; cbn [h_content h_offset]; apply skipn_plus.
Qed.
Theorem C30_text_cut : forall h n t, left h = [byte_of 96; byte_of 10] ++ little_endian 2 (Z.of_nat n) ++ t -> Z.of_nat n <= 65535 -> (length t < n)%nat ->
  match String_from_bytes t with
  | Ok s => exists h', read_debug_string h = Ok (s, h') /\ moved (4 + n) h h'
  | Err e => read_debug_string h = Err e
  end.
Proof.
  intros h n t E N L. unfold read_debug_string, read_int_16.
  rewrite little_endian_le_bytes in E.
  destruct (consume_left 2 h) as (h1 & C1 & M1 & L1). rewrite E in C1, L1. cbn [app firstn skipn] in C1, L1.
  destruct (consume_left 2 h1) as (h2 & C2 & M2 & L2). rewrite L1 in C2, L2.
  rewrite <- (le_bytes_length 2 (Z.of_nat n)) in C2 at 2. rewrite firstn_app, firstn_all, Nat.sub_diag, app_nil_r in C2.
  rewrite <- (le_bytes_length 2 (Z.of_nat n)) in L2 at 1. rewrite skipn_app, skipn_all, Nat.sub_diag in L2. cbn [app skipn] in L2.
  destruct (consume_left n h2) as (h3 & C3 & M3 & L3). rewrite L2 in C3. rewrite firstn_all2 in C3 by lia.
  unfold bind, ret, lift, note. rewrite C1. replace (Int_from_bytes [byte_of 96; byte_of 10] false) with 2656 by reflexivity.
  rewrite Z.eqb_refl. unfold py_assert. cbv beta iota. rewrite C2.
  assert (V : Int_from_bytes (le_bytes 2 (Z.of_nat n)) false = Z.of_nat n).
  { unfold Int_from_bytes. apply (int_roundtrip 2 false). unfold int_fits. change (word 2) with 65536. apply andb_true_intro. split; [apply Z.leb_le|apply Z.ltb_lt]; lia. }
  rewrite V, Nat2Z.id, C3. destruct (String_from_bytes t) as [s|e]; [|reflexivity].
  eexists. split; [reflexivity|]. unfold moved in *. destruct (ends_in_nul t); cbn [h_content h_offset h_version];
    (split; [intuition congruence|split; [lia|intuition congruence]]).
Qed.
(** struct.unpack of a record raises unless all its bytes are left. *)
Theorem C30_struct : forall f items n h, parse_fmt f = Some items -> fmt_size items = n -> (length (left h) < n)%nat ->
  read_struct f n h = Err StructError.
Proof.
  intros f items n h F S L. unfold read_struct, consume_range, consume_slice, bind, ret, note, lift, slice, struct_unpack. fold (left h).
  rewrite F, S. rewrite firstn_length, Nat.min_r by lia. destruct (Nat.eqb_spec (length (left h)) n); [lia|reflexivity].
Qed.

(** ** Files *)
Definition zeros (n : nat) : bytes := repeat (byte_of 0) n.
Definition no_random_maps : RandomMaps := {| RandomMaps_random_maps_ptr := 0; RandomMaps_map_info_1 := []; RandomMaps_map_info_2 := [] |}.
Definition no_tech_tree : TechTree := {| TechTree_total_unit_tech_groups := 0; TechTree_tech_tree_ages := []; TechTree_building_connections := [];
  TechTree_unit_connections := []; TechTree_research_connections := [] |}.
(** The file with the seven closing numbers 0 and an empty tech tree; without techs as well; and so on. *)
Definition no_closing (x : DatFile) : DatFile :=
  with_DatFile_tech_tree no_tech_tree (with_DatFile_time_slice 0 (with_DatFile_unit_kill_rate 0 (with_DatFile_unit_kill_total 0
    (with_DatFile_unit_hit_point_rate 0 (with_DatFile_unit_hit_point_total 0 (with_DatFile_razing_kill_rate 0 (with_DatFile_razing_kill_total 0 x))))))).
Definition no_techs (x : DatFile) : DatFile := with_DatFile_techs [] (no_closing x).
Definition no_civs (x : DatFile) : DatFile := with_DatFile_civs [] (no_techs x).
Definition no_headers (x : DatFile) : DatFile := with_DatFile_unit_headers [] (no_civs x).
Definition no_effects (x : DatFile) : DatFile := with_DatFile_effects [] (no_headers x).
Definition no_maps (x : DatFile) : DatFile := with_DatFile_random_maps no_random_maps (no_effects x).
(** The sections behind the terrain block, each with the number of bytes that it and what follows
    it take if all are empty. *)
Definition boundaries : list ((DatFile -> DatFile) * nat) :=
  [(no_maps, 56); (no_effects, 48); (no_headers, 44); (no_civs, 40); (no_techs, 38); (no_closing, 36)]%nat.
(** [p] is what comes before the section in the file [bs] of [x]: it is a prefix of [bs], and with
    [n] zero bytes it is the file of the object with that and the following sections empty. *)
Definition before_section (x : DatFile) (bs : bytes) (without : DatFile -> DatFile) (n : nat) (p : bytes) : Prop :=
  (exists q, bs = p ++ q) /\ to_bytes (without x) = Ok (p ++ zeros n).

(** *** Readers at the end of the data *)
Definition ends {A} (m : rd A) (a : A) : Prop := forall c v o ls, (length c <= o)%nat ->
  exists o' ls', m (mkHandler c o v ls) = Ok (a, mkHandler c o' v ls') /\ (length c <= o')%nat.
Lemma ends_ret {A} (a : A) : ends (ret a) a.
Proof. intros c v o ls L. exists o, ls. split; [reflexivity|exact L]. Qed.
Lemma ends_bind {A B} (m : rd A) (k : A -> rd B) a b : ends m a -> ends (k a) b -> ends (bind m k) b.
Proof.
  intros H1 H2 c v o ls L. destruct (H1 c v o ls L) as (o1 & l1 & E1 & L1). destruct (H2 c v o1 l1 L1) as (o2 & l2 & E2 & L2).
  exists o2, l2. unfold bind. rewrite E1. split; [exact E2|exact L2].
Qed.
Lemma ends_int n s : ends (bs <- consume_range n ;; ret (Int_from_bytes bs s)) 0.
Proof.
  intros c v o ls L. unfold consume_range, consume_slice, bind, note, ret, slice. cbn [h_content h_offset h_version h_losses].
  rewrite skipn_all2 by exact L. rewrite firstn_nil. replace (Int_from_bytes [] s) with 0 by (destruct s; reflexivity).
  destruct (Nat.ltb _ _); (eexists; eexists; split; [reflexivity|lia]).
Qed.
Lemma ends_u8 : ends read_int_8 0. Proof. apply ends_int. Qed.
Lemma ends_i16 s : ends (read_int_16 s) 0. Proof. apply ends_int. Qed.
Lemma ends_i32 s : ends (read_int_32 s) 0. Proof. apply ends_int. Qed.
Lemma ends_none {A} (m : rd A) : ends (read_class_array m 0) [].
Proof. intros c v o ls L. exists o, ls. split; [reflexivity|exact L]. Qed.
Ltac ends_solve := cbv beta; repeat first
  [ apply ends_ret | eapply ends_bind; [first [apply ends_u8|apply ends_i16|apply ends_i32|apply ends_none]|cbv beta] | apply ends_none ].
Lemma ends_maps : ends RandomMaps_from_bytes no_random_maps. Proof. unfold RandomMaps_from_bytes. ends_solve. Qed.
Lemma ends_effects : ends read_effects []. Proof. unfold read_effects. ends_solve. Qed.
Lemma ends_headers : ends read_headers []. Proof. unfold read_headers. ends_solve. Qed.
Lemma ends_civs : ends read_civs []. Proof. unfold read_civs. ends_solve. Qed.
Lemma ends_techs : ends read_techs []. Proof. unfold read_techs. ends_solve. Qed.
Lemma ends_tree : ends TechTree_from_bytes no_tech_tree. Proof. unfold TechTree_from_bytes. ends_solve. Qed.
Lemma ends_closing : ends read_closing (0, 0, 0, 0, 0, 0, 0, no_tech_tree).
Proof.
  unfold read_closing. do 7 (eapply ends_bind; [apply ends_i32|]). eapply ends_bind; [|apply ends_ret].
  unfold read_class. eapply ends_bind; [apply ends_tree|apply ends_ret].
Qed.

(** *** The pieces of a file *)
Record pieces (x : DatFile) (v : Version) (bh bf bb bm be bu bc bt bz : bytes) : Prop := {
  pc_version : file_version (DatFile_version x) = Some v;
  pc_header : length bh = 8%nat /\ String_from_bytes bh = Ok (DatFile_version x) /\ encode [Padded 8 (DatFile_version x)] = Some bh;
  pc_counts : count (DatFile_float_ptr_terrain_tables x) = count (DatFile_terrain_restrictions x) /\
    count (DatFile_terrain_pass_graphic_pointers x) = count (DatFile_terrain_restrictions x);
  pc_front : encode (front_cells v x) = Some bf /\ forall pre post, run read_front (pre ++ bf ++ post) v (length pre) (front_of x) (length pre + length bf) [];
  pc_block : encode (TerrainBlock_layout v (DatFile_terrain_block x)) = Some bb /\
    forall pre post, run TerrainBlock_from_bytes (pre ++ bb ++ post) v (length pre) (DatFile_terrain_block x) (length pre + length bb) [];
  pc_maps : encode (RandomMaps_layout v (DatFile_random_maps x)) = Some bm /\
    forall pre post, run RandomMaps_from_bytes (pre ++ bm ++ post) v (length pre) (DatFile_random_maps x) (length pre + length bm) [];
  pc_effects : encode (effect_cells v (DatFile_effects x)) = Some be /\
    forall pre post, run read_effects (pre ++ be ++ post) v (length pre) (DatFile_effects x) (length pre + length be) [];
  pc_headers : encode (header_cells v (DatFile_unit_headers x)) = Some bu /\
    forall pre post, run read_headers (pre ++ bu ++ post) v (length pre) (DatFile_unit_headers x) (length pre + length bu) [];
  pc_civs : encode (civ_cells v (DatFile_civs x)) = Some bc /\
    forall pre post, run read_civs (pre ++ bc ++ post) v (length pre) (DatFile_civs x) (length pre + length bc) [];
  pc_techs : encode (tech_cells v (DatFile_techs x)) = Some bt /\
    forall pre post, run read_techs (pre ++ bt ++ post) v (length pre) (DatFile_techs x) (length pre + length bt) [];
  pc_closing : encode (closing_cells v x) = Some bz /\
    forall pre post, run read_closing (pre ++ bz ++ post) v (length pre) (closing_of x) (length pre + length bz) [];
  pc_whole : to_bytes x = Ok (bh ++ bf ++ bb ++ bm ++ be ++ bu ++ bc ++ bt ++ bz) }.
Lemma piece {A} v cs (m : rd A) x : Parses v cs m x -> cells_ok cs -> exists bs, encode cs = Some bs /\
  forall pre post, run m (pre ++ bs ++ post) v (length pre) x (length pre + length bs) [].
Proof. intros P C. destruct (cells_ok_encode _ C) as [bs E]. exists bs. split; [exact E|]. intros pre post. exact (run_parses v cs m x bs pre post P C E). Qed.
Lemma get_pieces x : DatFile_wf x -> exists v bh bf bb bm be bu bc bt bz, pieces x v bh bf bb bm be bu bc bt bz.
Proof.
  intros W. pose proof (wf_arity x W) as A. pose proof (to_bytes_table x UNDEFINED A) as T. destruct W as [Hc Hs]. unfold DatFile_shape in Hs.
  unfold DatFile_layout in *. destruct (file_version (DatFile_version x)) as [v|] eqn:V; [|contradiction].
  apply cells_ok_guard in Hc. destruct Hc as [Hg Hc]. rewrite Hg in T. cbn [guard] in T.
  apply andb_true_iff in Hg. destruct Hg as [G1 G2]. apply Z.eqb_eq in G1, G2.
  apply cells_ok_app in Hc as [Hp Hb]. rewrite body_cells in Hb, T.
  apply cells_ok_app in Hb as [C1 Hb]. apply cells_ok_app in Hb as [C2 Hb]. apply cells_ok_app in Hb as [C3 Hb]. apply cells_ok_app in Hb as [C4 Hb].
  apply cells_ok_app in Hb as [C5 Hb]. apply cells_ok_app in Hb as [C6 Hb]. apply cells_ok_app in Hb as [C7 C8].
  destruct Hs as (S1 & S2 & S3 & S4 & S5 & S6 & S7 & S8).
  destruct (piece _ _ _ _ (front_parses v x G1 G2 S1 S2) C1) as (bf & Ef & Rf).
  destruct (piece _ _ _ _ (c_parses v (DatFile_terrain_block x) S3) C2) as (bb & Eb & Rb).
  destruct (piece _ _ _ _ (c_parses v (DatFile_random_maps x) S4) C3) as (bm & Em & Rm).
  destruct (piece _ _ _ _ (effects_parses v _) C4) as (be & Ee & Re).
  destruct (piece _ _ _ _ (headers_parses v _ S5) C5) as (bu & Eu & Ru).
  destruct (piece _ _ _ _ (civs_parses v _ S6) C6) as (bc & Ec & Rc).
  destruct (piece _ _ _ _ (techs_parses v _ S7) C7) as (bt & Et & Rt).
  destruct (piece _ _ _ _ (closing_parses v x S8) C8) as (bz & Ez & Rz).
  destruct (Parses_padded v 8 _ Hp) as (bh & Eh & Rh).
  exists v, bh, bf, bb, bm, be, bu, bc, bt, bz. split; try (split; assumption); [exact V| |].
  - pose proof (Rh [] [] []) as R. cbn [app length] in R. rewrite app_nil_r in R.
    unfold read_string, consume_range, consume_slice, bind, note, lift, ret, slice in R. cbn [h_content h_offset h_version h_losses skipn] in R.
    destruct (String_from_bytes (firstn 8 bh)) as [s|] eqn:E; [|discriminate R].
    assert (Q : length bh = 8%nat). { destruct (Nat.ltb _ _) in R; injection R; intros; lia. }
    split; [exact Q|]. split; [|exact Eh]. rewrite firstn_all2 in E by lia. injection R as <- _. exact E.
  - unfold to_bytes. rewrite !encode_app, Eh, Ef, Eb, Em, Ee, Eu, Ec, Et, Ez in T. cbn [oapp] in T.
    destruct (DatFile_to_bytes x UNDEFINED) as [b|]; cbn [returned] in T; [|discriminate T]. injection T as ->. reflexivity.
Qed.

(** *** Reading on at the end *)
Definition reads {A} (m : rd A) (c : bytes) (v : Version) (o : nat) (a : A) : Prop :=
  forall ls, exists h', m (mkHandler c o v ls) = Ok (a, h').
Lemma reads_run {A B} (m : rd A) (k : A -> rd B) c v o o' n x y : run m c v o x o' n -> reads (k x) c v o' y -> reads (bind m k) c v o y.
Proof. intros R K ls. unfold bind. rewrite R. apply K. Qed.
Lemma reads_ends {A B} (m : rd A) (k : A -> rd B) c v o x y : ends m x -> (length c <= o)%nat ->
  (forall o', (length c <= o')%nat -> reads (k x) c v o' y) -> reads (bind m k) c v o y.
Proof. intros E L K ls. destruct (E c v o ls L) as (o' & ls' & Q & L'). unfold bind. rewrite Q. apply K, L'. Qed.
Lemma reads_ret {A} (x : A) c v o : reads (ret x) c v o x.
Proof. intros ls. eexists. reflexivity. Qed.
(** A file whose version is known and whose body can be read. *)
Lemma from_bytes_reads x v bh rest y : file_version (DatFile_version x) = Some v -> length bh = 8%nat -> String_from_bytes bh = Ok (DatFile_version x) ->
  reads (read_parts (DatFile_version x)) (bh ++ rest) v 8 y -> from_bytes (bh ++ rest) = Ok y.
Proof.
  intros V L S R. destruct (from_bytes_header (bh ++ rest)) as (ls & ->). rewrite <- L, firstn_app, firstn_all, Nat.sub_diag, app_nil_r, S, version_lookup_spec, V.
  rewrite L, <- read_parts_eq. destruct (R ls) as (h' & ->). reflexivity.
Qed.

(** *** The cut objects *)
Definition closing0 : Closing := (0, 0, 0, 0, 0, 0, 0, no_tech_tree).
Definition with_sections (x : DatFile) m e u c t z : DatFile := file_of (DatFile_version x) (front_of x) (DatFile_terrain_block x) m e u c t z.
Definition closing_row v (z : Closing) : list cell :=
  let '(z1, z2, z3, z4, z5, z6, z7, z8) := z in [I32 z1; I32 z2; I32 z3; I32 z4; I32 z5; I32 z6; I32 z7] ++ TechTree_layout v z8.
Definition closing_tree (z : Closing) : TechTree := let '(_, z8) := z in z8.
Lemma closing_row_of v x : closing_cells v x = closing_row v (closing_of x).
Proof. reflexivity. Qed.
Lemma cut_eqs x :
  no_closing x = with_sections x (DatFile_random_maps x) (DatFile_effects x) (DatFile_unit_headers x) (DatFile_civs x) (DatFile_techs x) closing0 /\
  no_techs x = with_sections x (DatFile_random_maps x) (DatFile_effects x) (DatFile_unit_headers x) (DatFile_civs x) [] closing0 /\
  no_civs x = with_sections x (DatFile_random_maps x) (DatFile_effects x) (DatFile_unit_headers x) [] [] closing0 /\
  no_headers x = with_sections x (DatFile_random_maps x) (DatFile_effects x) [] [] [] closing0 /\
  no_effects x = with_sections x (DatFile_random_maps x) [] [] [] [] closing0 /\
  no_maps x = with_sections x no_random_maps [] [] [] [] closing0.
Proof. destruct x. repeat split. Qed.
Lemma sections_eq x m e u c t z : let y := with_sections x m e u c t z in
  DatFile_version y = DatFile_version x /\ front_of y = front_of x /\ DatFile_terrain_block y = DatFile_terrain_block x /\
  DatFile_random_maps y = m /\ DatFile_effects y = e /\ DatFile_unit_headers y = u /\ DatFile_civs y = c /\ DatFile_techs y = t /\ closing_of y = z.
Proof. destruct z as [[[[[[[z1 z2] z3] z4] z5] z6] z7] z8]. repeat split. Qed.
Lemma front_cells_of v x y : front_of x = front_of y -> front_cells v x = front_cells v y.
Proof.
  unfold front_of, front_cells, terrains_used. intros H. injection H as H1 H2 H3 H4 H5 H6. rewrite H1, H2, H3, H4, H5, H6. reflexivity.
Qed.
(** The bytes of a file with other sections. *)
Lemma cut_bytes x v bh bf bb bm be bu bc bt bz m e u c t z m' e' u' c' t' z' :
  pieces x v bh bf bb bm be bu bc bt bz -> Forall Civ_arity c ->
  encode (RandomMaps_layout v m) = Some m' -> encode (effect_cells v e) = Some e' -> encode (header_cells v u) = Some u' ->
  encode (civ_cells v c) = Some c' -> encode (tech_cells v t) = Some t' -> encode (closing_row v z) = Some z' ->
  to_bytes (with_sections x m e u c t z) = Ok (bh ++ bf ++ bb ++ m' ++ e' ++ u' ++ c' ++ t' ++ z').
Proof.
  intros P A Em Ee Eu Ec Et Ez. pose proof (to_bytes_table (with_sections x m e u c t z) UNDEFINED) as T.
  destruct (sections_eq x m e u c t z) as (Q1 & Q2 & Q3 & Q4 & Q5 & Q6 & Q7 & Q8 & Q9).
  set (y := with_sections x m e u c t z) in *. clearbody y.
  assert (Ay : DatFile_arity y) by (unfold DatFile_arity; rewrite Q7; exact A). specialize (T Ay).
  unfold DatFile_layout in T. rewrite Q1, (pc_version _ _ _ _ _ _ _ _ _ _ _ P) in T.
  destruct (pc_counts _ _ _ _ _ _ _ _ _ _ _ P) as [G1 G2].
  pose proof Q2 as F. unfold front_of in F. injection F as F1 F2 F3 _ _ _.
  rewrite F1, F2, F3, G1, G2, Z.eqb_refl in T. cbn [andb guard] in T. rewrite body_cells, Q3, Q4, Q5, Q6, Q7, Q8 in T.
  rewrite (front_cells_of v y x Q2), closing_row_of, Q9 in T.
  rewrite !encode_app, Em, Ee, Eu, Ec, Et, Ez in T.
  rewrite (proj2 (proj2 (pc_header _ _ _ _ _ _ _ _ _ _ _ P))), (proj1 (pc_front _ _ _ _ _ _ _ _ _ _ _ P)), (proj1 (pc_block _ _ _ _ _ _ _ _ _ _ _ P)) in T.
  cbn [oapp] in T. unfold to_bytes. destruct (DatFile_to_bytes y UNDEFINED) as [b|]; cbn [returned] in T; [|discriminate T]. injection T as ->. reflexivity.
Qed.
Lemma reads_piece {A B} (m : rd A) (k : A -> rd B) c v pre b post x y :
  (forall pre post, run m (pre ++ b ++ post) v (length pre) x (length pre + length b) []) -> c = pre ++ b ++ post ->
  reads (k x) c v (length (pre ++ b)) y -> reads (bind m k) c v (length pre) y.
Proof. intros R -> K. rewrite app_length in K. eapply reads_run; [apply R|exact K]. Qed.
Ltac by_piece P post := eapply (reads_piece _ _ _ _ _ _ post); [exact (proj2 P)|rewrite <- ?app_assoc, ?app_nil_r; reflexivity|cbv beta].
Ltac by_end := eapply reads_ends; [first [exact ends_maps|exact ends_effects|exact ends_headers|exact ends_civs|exact ends_techs|exact ends_closing]
  |try assumption; rewrite <- ?app_assoc; reflexivity || apply le_n|intros ? ?; cbv beta].
(** **** The theorem *)
(** A file may end before any section behind the terrain block: then it is read as if that and
    the following sections were empty. *)
Theorem C30_boundary : forall x bs without n, DatFile_wf x -> to_bytes x = Ok bs -> In (without, n) boundaries ->
  exists p, before_section x bs without n p /\ from_bytes p = Ok (without x).
Proof.
  intros x bs without n W E I. destruct (get_pieces x W) as (v & bh & bf & bb & bm & be & bu & bc & bt & bz & P).
  pose proof (wf_arity x W) as A. unfold DatFile_arity in A.
  pose proof (pc_whole _ _ _ _ _ _ _ _ _ _ _ P) as Q. rewrite E in Q. injection Q as ->.
  pose proof (pc_version _ _ _ _ _ _ _ _ _ _ _ P) as V. destruct (pc_header _ _ _ _ _ _ _ _ _ _ _ P) as (L8 & S8 & _).
  pose proof (pc_front _ _ _ _ _ _ _ _ _ _ _ P) as Pf. pose proof (pc_block _ _ _ _ _ _ _ _ _ _ _ P) as Pb.
  pose proof (pc_maps _ _ _ _ _ _ _ _ _ _ _ P) as Pm. pose proof (pc_effects _ _ _ _ _ _ _ _ _ _ _ P) as Pe.
  pose proof (pc_headers _ _ _ _ _ _ _ _ _ _ _ P) as Pu. pose proof (pc_civs _ _ _ _ _ _ _ _ _ _ _ P) as Pc.
  pose proof (pc_techs _ _ _ _ _ _ _ _ _ _ _ P) as Pt.
  destruct (cut_eqs x) as (D1 & D2 & D3 & D4 & D5 & D6). unfold before_section.
  cbn [In boundaries] in I. repeat (destruct I as [I|I]; [injection I as <- <-|]); try contradiction.
  - exists (bh ++ bf ++ bb). rewrite D6. split; [split; [exists (bm ++ be ++ bu ++ bc ++ bt ++ bz); rewrite <- ?app_assoc; reflexivity|]|].
    + rewrite (cut_bytes x v bh bf bb bm be bu bc bt bz _ _ _ _ _ _ (zeros 8) (zeros 4) (zeros 4) (zeros 2) (zeros 2) (zeros 36) P (Forall_nil _)) by first [reflexivity].
      rewrite <- ?app_assoc. reflexivity.
    + eapply from_bytes_reads; [exact V|exact L8|exact S8|]. unfold read_parts. rewrite <- L8.
      by_piece Pf (bb). by_piece Pb (@nil byte). do 6 by_end. apply reads_ret.
  - exists (bh ++ bf ++ bb ++ bm). rewrite D5. split; [split; [exists (be ++ bu ++ bc ++ bt ++ bz); rewrite <- ?app_assoc; reflexivity|]|].
    + rewrite (cut_bytes x v bh bf bb bm be bu bc bt bz _ _ _ _ _ _ bm (zeros 4) (zeros 4) (zeros 2) (zeros 2) (zeros 36) P (Forall_nil _)) by first [reflexivity|exact (proj1 Pm)].
      rewrite <- ?app_assoc. reflexivity.
    + eapply from_bytes_reads; [exact V|exact L8|exact S8|]. unfold read_parts. rewrite <- L8.
      by_piece Pf (bb ++ bm). by_piece Pb (bm). by_piece Pm (@nil byte). do 5 by_end. apply reads_ret.
  - exists (bh ++ bf ++ bb ++ bm ++ be). rewrite D4. split; [split; [exists (bu ++ bc ++ bt ++ bz); rewrite <- ?app_assoc; reflexivity|]|].
    + rewrite (cut_bytes x v bh bf bb bm be bu bc bt bz _ _ _ _ _ _ bm be (zeros 4) (zeros 2) (zeros 2) (zeros 36) P (Forall_nil _)) by first [reflexivity|exact (proj1 Pm)|exact (proj1 Pe)].
      rewrite <- ?app_assoc. reflexivity.
    + eapply from_bytes_reads; [exact V|exact L8|exact S8|]. unfold read_parts. rewrite <- L8.
      by_piece Pf (bb ++ bm ++ be). by_piece Pb (bm ++ be). by_piece Pm (be). by_piece Pe (@nil byte). do 4 by_end. apply reads_ret.
  - exists (bh ++ bf ++ bb ++ bm ++ be ++ bu). rewrite D3. split; [split; [exists (bc ++ bt ++ bz); rewrite <- ?app_assoc; reflexivity|]|].
    + rewrite (cut_bytes x v bh bf bb bm be bu bc bt bz _ _ _ _ _ _ bm be bu (zeros 2) (zeros 2) (zeros 36) P (Forall_nil _)) by first [reflexivity|exact (proj1 Pm)|exact (proj1 Pe)|exact (proj1 Pu)].
      rewrite <- ?app_assoc. reflexivity.
    + eapply from_bytes_reads; [exact V|exact L8|exact S8|]. unfold read_parts. rewrite <- L8.
      by_piece Pf (bb ++ bm ++ be ++ bu). by_piece Pb (bm ++ be ++ bu). by_piece Pm (be ++ bu). by_piece Pe (bu). by_piece Pu (@nil byte). do 3 by_end. apply reads_ret.
  - exists (bh ++ bf ++ bb ++ bm ++ be ++ bu ++ bc). rewrite D2. split; [split; [exists (bt ++ bz); rewrite <- ?app_assoc; reflexivity|]|].
    + rewrite (cut_bytes x v bh bf bb bm be bu bc bt bz _ _ _ _ _ _ bm be bu bc (zeros 2) (zeros 36) P A) by first [reflexivity|exact (proj1 Pm)|exact (proj1 Pe)|exact (proj1 Pu)|exact (proj1 Pc)].
      rewrite <- ?app_assoc. reflexivity.
    + eapply from_bytes_reads; [exact V|exact L8|exact S8|]. unfold read_parts. rewrite <- L8.
      by_piece Pf (bb ++ bm ++ be ++ bu ++ bc). by_piece Pb (bm ++ be ++ bu ++ bc). by_piece Pm (be ++ bu ++ bc). by_piece Pe (bu ++ bc). by_piece Pu (bc). by_piece Pc (@nil byte). do 2 by_end. apply reads_ret.
  - exists (bh ++ bf ++ bb ++ bm ++ be ++ bu ++ bc ++ bt). rewrite D1. split; [split; [exists (bz); rewrite <- ?app_assoc; reflexivity|]|].
    + rewrite (cut_bytes x v bh bf bb bm be bu bc bt bz _ _ _ _ _ _ bm be bu bc bt (zeros 36) P A) by first [reflexivity|exact (proj1 Pm)|exact (proj1 Pe)|exact (proj1 Pu)|exact (proj1 Pc)|exact (proj1 Pt)].
      rewrite <- ?app_assoc. reflexivity.
    + eapply from_bytes_reads; [exact V|exact L8|exact S8|]. unfold read_parts. rewrite <- L8.
      by_piece Pf (bb ++ bm ++ be ++ bu ++ bc ++ bt). by_piece Pb (bm ++ be ++ bu ++ bc ++ bt). by_piece Pm (be ++ bu ++ bc ++ bt). by_piece Pe (bu ++ bc ++ bt). by_piece Pu (bc ++ bt). by_piece Pc (bt). by_piece Pt (@nil byte). do 1 by_end. apply reads_ret.
Qed.

(** What comes before the section is determined. *)
Lemma before_section_one x bs without n p p' : before_section x bs without n p -> before_section x bs without n p' -> p = p'.
Proof. intros [_ E] [_ E']. rewrite E in E'. injection E' as E'. exact (app_inv_tail _ _ _ E'). Qed.
(** **** Whatever follows *)
Definition yields {A} (m : rd A) (Q : A -> Prop) : Prop := forall h, match m h with Ok (y, _) => Q y | Err _ => True end.
Lemma yields_ret {A} (y : A) (Q : A -> Prop) : Q y -> yields (ret y) Q.
Proof. intros H h. exact H. Qed.
Lemma yields_bind {A B} (m : rd A) (k : A -> rd B) Q : (forall a, yields (k a) Q) -> yields (bind m k) Q.
Proof. intros H h. unfold bind. destruct (m h) as [[a h']|]; [apply H|exact I]. Qed.
Definition yields_at {A} (m : rd A) (c : bytes) v o (Q : A -> Prop) : Prop := forall ls, match m (mkHandler c o v ls) with Ok (y, _) => Q y | Err _ => True end.
Lemma yields_any {A} (m : rd A) Q c v o : yields m Q -> yields_at m c v o Q.
Proof. intros H ls. apply H. Qed.
Lemma yields_piece {A B} (m : rd A) (k : A -> rd B) c v pre b post x Q :
  (forall pre post, run m (pre ++ b ++ post) v (length pre) x (length pre + length b) []) -> c = pre ++ b ++ post ->
  yields_at (k x) c v (length (pre ++ b)) Q -> yields_at (bind m k) c v (length pre) Q.
Proof. intros R -> K ls. unfold bind. rewrite R. rewrite app_length in K. apply K. Qed.
Ltac y_piece P post := eapply (yields_piece _ _ _ _ _ _ post); [exact (proj2 P)|rewrite <- ?app_assoc, ?app_nil_r; reflexivity|cbv beta].
Lemma from_bytes_yields x v bh rest Q : file_version (DatFile_version x) = Some v -> length bh = 8%nat -> String_from_bytes bh = Ok (DatFile_version x) ->
  yields_at (read_parts (DatFile_version x)) (bh ++ rest) v 8 Q -> forall y, from_bytes (bh ++ rest) = Ok y -> Q y.
Proof.
  intros V L S R y. destruct (from_bytes_header (bh ++ rest)) as (ls & ->). rewrite <- L, firstn_app, firstn_all, Nat.sub_diag, app_nil_r, S, version_lookup_spec, V.
  rewrite L, <- read_parts_eq. specialize (R ls). destruct (read_parts _ _) as [[z h']|]; [|discriminate]. intros E. injection E as <-. exact R.
Qed.
(** Whatever comes instead of the section and what follows it, if it can be read then the sections
    before are those of the file. *)
Ltac same_cut := match goal with z : Closing |- _ => destruct z as [[[[[[[? ?] ?] ?] ?] ?] ?] ?] end; reflexivity.
Theorem C30_sections_before : forall x bs without n p tail y, DatFile_wf x -> to_bytes x = Ok bs -> In (without, n) boundaries ->
  before_section x bs without n p -> from_bytes (p ++ tail) = Ok y -> without y = without x.
Proof.
  intros x bs without n p tail y W E I B. destruct (get_pieces x W) as (v & bh & bf & bb & bm & be & bu & bc & bt & bz & P).
  pose proof (wf_arity x W) as A. unfold DatFile_arity in A.
  pose proof (pc_version _ _ _ _ _ _ _ _ _ _ _ P) as V. destruct (pc_header _ _ _ _ _ _ _ _ _ _ _ P) as (L8 & S8 & _).
  pose proof (pc_front _ _ _ _ _ _ _ _ _ _ _ P) as Pf. pose proof (pc_block _ _ _ _ _ _ _ _ _ _ _ P) as Pb.
  pose proof (pc_maps _ _ _ _ _ _ _ _ _ _ _ P) as Pm. pose proof (pc_effects _ _ _ _ _ _ _ _ _ _ _ P) as Pe.
  pose proof (pc_headers _ _ _ _ _ _ _ _ _ _ _ P) as Pu. pose proof (pc_civs _ _ _ _ _ _ _ _ _ _ _ P) as Pc.
  pose proof (pc_techs _ _ _ _ _ _ _ _ _ _ _ P) as Pt.
  destruct (cut_eqs x) as (D1 & D2 & D3 & D4 & D5 & D6). destruct B as [_ B].
  cbn [In boundaries] in I. repeat (destruct I as [I|I]; [injection I as <- <-|]); try contradiction.
  - assert (Hp : p = bh ++ bf ++ bb).
    { apply (app_inv_tail (zeros 56)). rewrite D6, (cut_bytes x v bh bf bb bm be bu bc bt bz _ _ _ _ _ _ (zeros 8) (zeros 4) (zeros 4) (zeros 2) (zeros 2) (zeros 36) P (Forall_nil _)) in B by first [reflexivity].
      injection B as <-. rewrite <- ?app_assoc. reflexivity. }
    subst p. rewrite <- !app_assoc. refine (from_bytes_yields x v bh _ (fun y => no_maps y = no_maps x) V L8 S8 _ y). unfold read_parts. rewrite <- L8.
    y_piece Pf (bb ++ tail). y_piece Pb (tail).
    apply yields_any. do 6 (apply yields_bind; intros ?). apply yields_ret. rewrite D6. destruct x. same_cut.
  - assert (Hp : p = bh ++ bf ++ bb ++ bm).
    { apply (app_inv_tail (zeros 48)). rewrite D5, (cut_bytes x v bh bf bb bm be bu bc bt bz _ _ _ _ _ _ bm (zeros 4) (zeros 4) (zeros 2) (zeros 2) (zeros 36) P (Forall_nil _)) in B by first [reflexivity|exact (proj1 Pm)].
      injection B as <-. rewrite <- ?app_assoc. reflexivity. }
    subst p. rewrite <- !app_assoc. refine (from_bytes_yields x v bh _ (fun y => no_effects y = no_effects x) V L8 S8 _ y). unfold read_parts. rewrite <- L8.
    y_piece Pf (bb ++ bm ++ tail). y_piece Pb (bm ++ tail). y_piece Pm (tail).
    apply yields_any. do 5 (apply yields_bind; intros ?). apply yields_ret. rewrite D5. destruct x. same_cut.
  - assert (Hp : p = bh ++ bf ++ bb ++ bm ++ be).
    { apply (app_inv_tail (zeros 44)). rewrite D4, (cut_bytes x v bh bf bb bm be bu bc bt bz _ _ _ _ _ _ bm be (zeros 4) (zeros 2) (zeros 2) (zeros 36) P (Forall_nil _)) in B by first [reflexivity|exact (proj1 Pm)|exact (proj1 Pe)].
      injection B as <-. rewrite <- ?app_assoc. reflexivity. }
    subst p. rewrite <- !app_assoc. refine (from_bytes_yields x v bh _ (fun y => no_headers y = no_headers x) V L8 S8 _ y). unfold read_parts. rewrite <- L8.
    y_piece Pf (bb ++ bm ++ be ++ tail). y_piece Pb (bm ++ be ++ tail). y_piece Pm (be ++ tail). y_piece Pe (tail).
    apply yields_any. do 4 (apply yields_bind; intros ?). apply yields_ret. rewrite D4. destruct x. same_cut.
  - assert (Hp : p = bh ++ bf ++ bb ++ bm ++ be ++ bu).
    { apply (app_inv_tail (zeros 40)). rewrite D3, (cut_bytes x v bh bf bb bm be bu bc bt bz _ _ _ _ _ _ bm be bu (zeros 2) (zeros 2) (zeros 36) P (Forall_nil _)) in B by first [reflexivity|exact (proj1 Pm)|exact (proj1 Pe)|exact (proj1 Pu)].
      injection B as <-. rewrite <- ?app_assoc. reflexivity. }
    subst p. rewrite <- !app_assoc. refine (from_bytes_yields x v bh _ (fun y => no_civs y = no_civs x) V L8 S8 _ y). unfold read_parts. rewrite <- L8.
    y_piece Pf (bb ++ bm ++ be ++ bu ++ tail). y_piece Pb (bm ++ be ++ bu ++ tail). y_piece Pm (be ++ bu ++ tail). y_piece Pe (bu ++ tail). y_piece Pu (tail).
    apply yields_any. do 3 (apply yields_bind; intros ?). apply yields_ret. rewrite D3. destruct x. same_cut.
  - assert (Hp : p = bh ++ bf ++ bb ++ bm ++ be ++ bu ++ bc).
    { apply (app_inv_tail (zeros 38)). rewrite D2, (cut_bytes x v bh bf bb bm be bu bc bt bz _ _ _ _ _ _ bm be bu bc (zeros 2) (zeros 36) P A) in B by first [reflexivity|exact (proj1 Pm)|exact (proj1 Pe)|exact (proj1 Pu)|exact (proj1 Pc)].
      injection B as <-. rewrite <- ?app_assoc. reflexivity. }
    subst p. rewrite <- !app_assoc. refine (from_bytes_yields x v bh _ (fun y => no_techs y = no_techs x) V L8 S8 _ y). unfold read_parts. rewrite <- L8.
    y_piece Pf (bb ++ bm ++ be ++ bu ++ bc ++ tail). y_piece Pb (bm ++ be ++ bu ++ bc ++ tail). y_piece Pm (be ++ bu ++ bc ++ tail). y_piece Pe (bu ++ bc ++ tail). y_piece Pu (bc ++ tail). y_piece Pc (tail).
    apply yields_any. do 2 (apply yields_bind; intros ?). apply yields_ret. rewrite D2. destruct x. same_cut.
  - assert (Hp : p = bh ++ bf ++ bb ++ bm ++ be ++ bu ++ bc ++ bt).
    { apply (app_inv_tail (zeros 36)). rewrite D1, (cut_bytes x v bh bf bb bm be bu bc bt bz _ _ _ _ _ _ bm be bu bc bt (zeros 36) P A) in B by first [reflexivity|exact (proj1 Pm)|exact (proj1 Pe)|exact (proj1 Pu)|exact (proj1 Pc)|exact (proj1 Pt)].
      injection B as <-. rewrite <- ?app_assoc. reflexivity. }
    subst p. rewrite <- !app_assoc. refine (from_bytes_yields x v bh _ (fun y => no_closing y = no_closing x) V L8 S8 _ y). unfold read_parts. rewrite <- L8.
    y_piece Pf (bb ++ bm ++ be ++ bu ++ bc ++ bt ++ tail). y_piece Pb (bm ++ be ++ bu ++ bc ++ bt ++ tail). y_piece Pm (be ++ bu ++ bc ++ bt ++ tail). y_piece Pe (bu ++ bc ++ bt ++ tail). y_piece Pu (bc ++ bt ++ tail). y_piece Pc (bt ++ tail). y_piece Pt (tail).
    apply yields_any. do 1 (apply yields_bind; intros ?). apply yields_ret. rewrite D1. destruct x. same_cut.
Qed.
(** *** Cuts in the closing section *)
Lemma closing_never : never_raises read_closing.
Proof. apply Rd_never. unfold read_closing. es. Qed.
(** A file is accepted whatever its closing section is, and however short. *)
Theorem C30_closing : forall x bs p tail, DatFile_wf x -> to_bytes x = Ok bs -> before_section x bs no_closing 36 p ->
  exists y, from_bytes (p ++ tail) = Ok y /\ no_closing y = no_closing x.
Proof.
  intros x bs p tail W E B.
  enough (H : exists y, from_bytes (p ++ tail) = Ok y).
  { destruct H as [y Y]. exists y. split; [exact Y|]. eapply C30_sections_before; try eassumption. do 5 right. left. reflexivity. }
  destruct (get_pieces x W) as (v & bh & bf & bb & bm & be & bu & bc & bt & bz & P).
  pose proof (wf_arity x W) as A. unfold DatFile_arity in A. destruct B as [_ B].
  pose proof (pc_version _ _ _ _ _ _ _ _ _ _ _ P) as V. destruct (pc_header _ _ _ _ _ _ _ _ _ _ _ P) as (L8 & S8 & _).
  pose proof (pc_front _ _ _ _ _ _ _ _ _ _ _ P) as Pf. pose proof (pc_block _ _ _ _ _ _ _ _ _ _ _ P) as Pb.
  pose proof (pc_maps _ _ _ _ _ _ _ _ _ _ _ P) as Pm. pose proof (pc_effects _ _ _ _ _ _ _ _ _ _ _ P) as Pe.
  pose proof (pc_headers _ _ _ _ _ _ _ _ _ _ _ P) as Pu. pose proof (pc_civs _ _ _ _ _ _ _ _ _ _ _ P) as Pc.
  pose proof (pc_techs _ _ _ _ _ _ _ _ _ _ _ P) as Pt.
  destruct (cut_eqs x) as (D1 & _).
  assert (Hp : p = bh ++ bf ++ bb ++ bm ++ be ++ bu ++ bc ++ bt).
  { apply (app_inv_tail (zeros 36)). rewrite D1, (cut_bytes x v bh bf bb bm be bu bc bt bz _ _ _ _ _ _ bm be bu bc bt (zeros 36) P A) in B
      by first [reflexivity|exact (proj1 Pm)|exact (proj1 Pe)|exact (proj1 Pu)|exact (proj1 Pc)|exact (proj1 Pt)].
    injection B as <-. rewrite <- ?app_assoc. reflexivity. }
  subst p. rewrite <- !app_assoc.
  assert (K : forall c o, exists z, forall ls, exists h', read_closing (mkHandler c o v ls) = Ok (z, h')).
  { intros c o. destruct (closing_never (mkHandler c o v [])) as (z & hz & Ez). exists z. intros ls.
    pose proof (ltac:(unfold read_closing; es) : Rd (fun _ => True) read_closing) as R.
    specialize (R (mkHandler c o v [])). rewrite Ez in R.
    destruct R as (Cz & Oz & new & Lz & R). specialize (R c ls (or_introl eq_refl)). eexists. exact R. }
  destruct (K (bh ++ bf ++ bb ++ bm ++ be ++ bu ++ bc ++ bt ++ tail) (length (((((((bh ++ bf) ++ bb) ++ bm) ++ be) ++ bu) ++ bc) ++ bt))) as [z Kz].
  exists (with_sections x (DatFile_random_maps x) (DatFile_effects x) (DatFile_unit_headers x) (DatFile_civs x) (DatFile_techs x) z).
  eapply from_bytes_reads; [exact V|exact L8|exact S8|]. unfold read_parts. rewrite <- L8.
  by_piece Pf (bb ++ bm ++ be ++ bu ++ bc ++ bt ++ tail). by_piece Pb (bm ++ be ++ bu ++ bc ++ bt ++ tail). by_piece Pm (be ++ bu ++ bc ++ bt ++ tail).
  by_piece Pe (bu ++ bc ++ bt ++ tail). by_piece Pu (bc ++ bt ++ tail). by_piece Pc (bt ++ tail). by_piece Pt tail.
  intros ls. destruct (Kz ls) as (h' & Eh). unfold bind. rewrite Eh. eexists. reflexivity.
Qed.

(** *** Cuts before the end of the terrain block *)
(** The terrain block ends with 39 bytes of integers behind its last float. *)
Definition block_floats : rd (Z * Z * Z * Z * Z * Z * list TileSize * Z * list Terrain * f64 * f64 * f64 * f64 * f64 * f64) :=
  virtual_function_ptr <- read_int_32 false ;;
  map_pointer <- read_int_32 false ;;
  map_width <- read_int_32 true ;;
  map_height <- read_int_32 true ;;
  world_width <- read_int_32 true ;;
  world_height <- read_int_32 true ;;
  tile_sizes <- read_class_array TileSize_from_bytes TILE_TYPE_COUNT ;;
  padding_ts <- read_int_16 true ;;
  terrains <- read_class_array Terrain_from_bytes TERRAIN_COUNT ;;
  map_min_x <- read_float ;;
  map_min_y <- read_float ;;
  map_max_x <- read_float ;;
  map_max_y <- read_float ;;
  map_max_x_plus_1 <- read_float ;;
  map_max_y_plus_1 <- read_float ;;
  ret (virtual_function_ptr, map_pointer, map_width, map_height, world_width, world_height, tile_sizes, padding_ts, terrains, map_min_x, map_min_y, map_max_x, map_max_y, map_max_x_plus_1, map_max_y_plus_1).
Definition block_ints (a : Z * Z * Z * Z * Z * Z * list TileSize * Z * list Terrain * f64 * f64 * f64 * f64 * f64 * f64) : rd TerrainBlock :=
  let '(virtual_function_ptr, map_pointer, map_width, map_height, world_width, world_height, tile_sizes, padding_ts, terrains, map_min_x, map_min_y, map_max_x, map_max_y, map_max_x_plus_1, map_max_y_plus_1) := a in
  terrains_used_2 <- read_int_16 true ;;
  borders_used <- read_int_16 true ;;
  max_terrain <- read_int_16 true ;;
  tile_width <- read_int_16 true ;;
  tile_height <- read_int_16 true ;;
  tile_half_height <- read_int_16 true ;;
  tile_half_width <- read_int_16 true ;;
  elev_height <- read_int_16 true ;;
  cur_row <- read_int_16 true ;;
  cur_col <- read_int_16 true ;;
  block_beg_row <- read_int_16 true ;;
  block_end_row <- read_int_16 true ;;
  block_beg_col <- read_int_16 true ;;
  block_end_col <- read_int_16 true ;;
  search_map_ptr <- read_int_32 false ;;
  search_map_rows_ptr <- read_int_32 false ;;
  any_frame_change <- read_int_8 ;;
  map_visible_flag <- read_int_8 ;;
  fog_flag <- read_int_8 ;;
  ret (mkTerrainBlock virtual_function_ptr map_pointer map_width map_height world_width world_height tile_sizes padding_ts terrains map_min_x map_min_y map_max_x map_max_y map_max_x_plus_1 map_max_y_plus_1 terrains_used_2 borders_used max_terrain tile_width tile_height tile_half_height tile_half_width elev_height cur_row cur_col block_beg_row block_end_row block_beg_col block_end_col search_map_ptr search_map_rows_ptr any_frame_change map_visible_flag fog_flag).

Lemma block_split h : TerrainBlock_from_bytes h = bind block_floats block_ints h.
Proof.
  unfold TerrainBlock_from_bytes, block_floats, block_ints, bind, ret.
  repeat match goal with |- context [match ?m ?h with Ok _ => _ | Err _ => _ end] =>
    is_var h; destruct (m h) as [[? ?]|]; [|reflexivity] end. reflexivity.
Qed.
Lemma int_steps n s c v o ls : exists z ls', (bs <- consume_range n ;; ret (Int_from_bytes bs s)) (mkHandler c o v ls) = Ok (z, mkHandler c (o + n) v ls').
Proof.
  unfold consume_range, consume_slice, bind, note, ret. cbn [h_content h_offset h_version h_losses]. destruct (Nat.ltb _ _); (eexists; eexists; reflexivity).
Qed.
Lemma u8_steps c v o ls : exists z ls', read_int_8 (mkHandler c o v ls) = Ok (z, mkHandler c (o + 1) v ls'). Proof. apply int_steps. Qed.
Lemma i16_steps s c v o ls : exists z ls', read_int_16 s (mkHandler c o v ls) = Ok (z, mkHandler c (o + 2) v ls'). Proof. apply int_steps. Qed.
Lemma i32_steps s c v o ls : exists z ls', read_int_32 s (mkHandler c o v ls) = Ok (z, mkHandler c (o + 4) v ls'). Proof. apply int_steps. Qed.
Lemma block_ints_steps a c v o ls : exists b ls', block_ints a (mkHandler c o v ls) = Ok (b, mkHandler c (o + 39) v ls').
Proof.
  destruct a as [[[[[[[[[[[[[[? ?] ?] ?] ?] ?] ?] ?] ?] ?] ?] ?] ?] ?] ?]. unfold block_ints, bind.
  repeat match goal with
  | |- context [read_int_8 (mkHandler ?c ?o ?v ?l)] => destruct (u8_steps c v o l) as (? & ? & ->); cbv beta iota
  | |- context [read_int_16 ?s (mkHandler ?c ?o ?v ?l)] => destruct (i16_steps s c v o l) as (? & ? & ->); cbv beta iota
  | |- context [read_int_32 ?s (mkHandler ?c ?o ?v ?l)] => destruct (i32_steps s c v o l) as (? & ? & ->); cbv beta iota
  end.
  unfold ret. replace (o + 39)%nat with (o + 2 + 2 + 2 + 2 + 2 + 2 + 2 + 2 + 2 + 2 + 2 + 2 + 2 + 2 + 4 + 4 + 1 + 1 + 1)%nat by lia. eexists. eexists. reflexivity.
Qed.
Definition strictly : rd (Front * _) := f <- read_front ;; a <- block_floats ;; ret (f, a).
Lemma strictly_Rd {S : exn -> Prop} : S StructError -> S AssertionError -> S UnicodeDecodeError -> Rd S strictly.
Proof. intros HS HA HD. unfold strictly, read_front, block_floats. es. Qed.
Lemma float_strict h x h' : read_float h = Ok (x, h') -> (h_offset h' <= length (h_content h'))%nat.
Proof.
  unfold read_float, consume_range, consume_slice, bind, ret, note, lift, slice, Float_from_bytes.
  rewrite firstn_length, skipn_length. destruct (Nat.eqb_spec (Nat.min 4 (length (h_content h) - h_offset h)) 4); [|discriminate].
  destruct (Nat.ltb _ _); intros E; destruct (_ && _) in E; injection E as _ <-; cbn [h_content h_offset]; lia.
Qed.
Definition strict {A} (m : rd A) : Prop := forall h x h', m h = Ok (x, h') -> (h_offset h' <= length (h_content h'))%nat.
Lemma strict_bind {A B} (m : rd A) (k : A -> rd B) : (forall a, strict (k a)) -> strict (bind m k).
Proof. intros H h x h' E. apply bind_inv in E as (a & h1 & _ & E). exact (H a h1 x h' E). Qed.
Lemma strict_last {A B} (m : rd A) (g : A -> B) : strict m -> strict (bind m (fun a => ret (g a))).
Proof. intros H h x h' E. apply bind_inv in E as (a & h1 & E & R). injection R as _ <-. exact (H h a h1 E). Qed.
Lemma strictly_strict : strict strictly.
Proof.
  unfold strictly. apply strict_bind. intros f. apply strict_last. unfold block_floats. do 14 (apply strict_bind; intros ?). apply strict_last.
  exact float_strict.
Qed.
Lemma bind_assoc_at {A B C} (m : rd A) (k : A -> rd B) (l : B -> rd C) h : bind (bind m k) l h = bind m (fun x => bind (k x) l) h.
Proof. unfold bind. destruct (m h) as [[a h']|]; reflexivity. Qed.
Lemma bind_cong {A B} (m : rd A) (k k' : A -> rd B) h : (forall a h', k a h' = k' a h') -> bind m k h = bind m k' h.
Proof. intros H. unfold bind. destruct (m h) as [[a h']|]; [apply H|reflexivity]. Qed.
Lemma bind_head {A B} (m m' : rd A) (k : A -> rd B) h : m h = m' h -> bind m k h = bind m' k h.
Proof. intros H. unfold bind. rewrite H. reflexivity. Qed.
Definition after_strictly s (fa : Front * _) : rd DatFile :=
  b <- block_ints (snd fa) ;; m <- RandomMaps_from_bytes ;; e <- read_effects ;; u <- read_headers ;;
  c <- read_civs ;; t <- read_techs ;; z <- read_closing ;; ret (file_of s (fst fa) b m e u c t z).
Lemma parts_strictly s h : read_parts s h = bind strictly (after_strictly s) h.
Proof.
  unfold read_parts, strictly. rewrite bind_assoc_at. apply bind_cong. intros f h1. rewrite bind_assoc_at.
  rewrite (bind_head _ _ _ _ (block_split h1)), bind_assoc_at. apply bind_cong. intros a h2. reflexivity.
Qed.
Lemma strictly_on x v bh bf bb bm be bu bc bt bz : pieces x v bh bf bb bm be bu bc bt bz ->
  exists a o ls, strictly (mkHandler (bh ++ bf ++ bb) 8 v []) = Ok ((front_of x, a), mkHandler (bh ++ bf ++ bb) o v ls) /\ (o + 39 = length (bh ++ bf ++ bb))%nat.
Proof.
  intros P. destruct (pc_header _ _ _ _ _ _ _ _ _ _ _ P) as (L8 & _).
  pose proof (proj2 (pc_front _ _ _ _ _ _ _ _ _ _ _ P) bh bb []) as F. pose proof (proj2 (pc_block _ _ _ _ _ _ _ _ _ _ _ P) (bh ++ bf) [] []) as B.
  rewrite app_nil_r, <- app_assoc, block_split, app_length in B. set (c := bh ++ bf ++ bb) in *. rewrite L8 in F, B.
  unfold strictly, bind at 1. rewrite F. cbn [app].
  apply bind_inv in B as (a & h2 & E2 & E3). unfold bind at 1. rewrite E2. destruct h2 as [c2 o2 v2 l2].
  destruct (block_ints_steps a c2 v2 o2 l2) as (b & ls' & E4). rewrite E4 in E3. injection E3 as _ -> Ho -> _.
  exists a, o2, l2. split; [reflexivity|]. rewrite Ho. unfold c. rewrite !app_length, L8. lia.
Qed.
Lemma before_maps x bs p v bh bf bb bm be bu bc bt bz : pieces x v bh bf bb bm be bu bc bt bz -> before_section x bs no_maps 56 p -> p = bh ++ bf ++ bb.
Proof.
  intros P [_ B]. destruct (cut_eqs x) as (_ & _ & _ & _ & _ & D6).
  apply (app_inv_tail (zeros 56)). rewrite D6, (cut_bytes x v bh bf bb bm be bu bc bt bz _ _ _ _ _ _ (zeros 8) (zeros 4) (zeros 4) (zeros 2) (zeros 2) (zeros 36) P (Forall_nil _)) in B by reflexivity.
  injection B as <-. rewrite <- ?app_assoc. reflexivity.
Qed.
Lemma cut_is x bs n p k : before_section x bs no_maps n p -> (k <= length p)%nat -> firstn k bs = firstn k p.
Proof. intros [(q & ->) _] L. rewrite firstn_app. replace (k - length p)%nat with 0%nat by lia. cbn [firstn]. apply app_nil_r. Qed.
(** **** The theorems *)
(** A file cut in the last 39 bytes of the terrain block is accepted: the integers of the terrain
    block that are cut off are 0 or shortened, and all later sections are empty. *)
Theorem C30_cut_block : forall x bs p k, DatFile_wf x -> to_bytes x = Ok bs -> before_section x bs no_maps 56 p ->
  (k <= length p <= k + 39)%nat ->
  exists y, from_bytes (firstn k bs) = Ok y /\ with_DatFile_terrain_block (DatFile_terrain_block x) y = no_maps x.
Proof.
  intros x bs p k W E B L. rewrite (cut_is _ _ _ _ _ B) by lia.
  destruct (get_pieces x W) as (v & bh & bf & bb & bm & be & bu & bc & bt & bz & P).
  pose proof (before_maps _ _ _ _ _ _ _ _ _ _ _ _ _ P B) as Hp.
  destruct (pc_header _ _ _ _ _ _ _ _ _ _ _ P) as (L8 & S8 & _). pose proof (pc_version _ _ _ _ _ _ _ _ _ _ _ P) as V.
  destruct (strictly_on _ _ _ _ _ _ _ _ _ _ _ P) as (a & o & l0 & E0 & Lo). rewrite <- Hp in E0, Lo.
  pose proof (strictly_Rd (S := fun _ => True) I I I (mkHandler p 8 v [])) as R. rewrite E0 in R. destruct R as (_ & O & new & _ & R).
  cbn [h_offset h_content h_version] in O, R.
  set (c := firstn k p). assert (Lc : length c = k) by (unfold c; rewrite firstn_length; lia).
  assert (A : forall ls, strictly (mkHandler c 8 v ls) = Ok ((front_of x, a), mkHandler c o v (new ++ ls))).
  { intros ls. apply R. right. split; [lia|]. unfold c. rewrite firstn_firstn. f_equal. lia. }
  assert (Hc : c = bh ++ skipn 8 c).
  { rewrite <- (firstn_skipn 8 c) at 1. f_equal. unfold c. rewrite firstn_firstn, Nat.min_l by lia. rewrite Hp, <- L8, firstn_app, firstn_all, Nat.sub_diag. apply app_nil_r. }
  assert (K : exists b, forall ls, exists ls', block_ints a (mkHandler c o v ls) = Ok (b, mkHandler c (o + 39) v ls')).
  { destruct (block_ints_steps a c v o []) as (b & l1 & Eb). exists b. intros ls. destruct (block_ints_steps a c v o ls) as (b' & l2 & Eb').
    exists l2. rewrite Eb'. pose proof (ltac:(destruct a as [[[[[[[[[[[[[[? ?] ?] ?] ?] ?] ?] ?] ?] ?] ?] ?] ?] ?] ?]; unfold block_ints; es) : Rd (fun _ => True) (block_ints a)) as Rb.
    specialize (Rb (mkHandler c o v [])). rewrite Eb in Rb. destruct Rb as (_ & _ & nb & _ & Rb). specialize (Rb c ls (or_introl eq_refl)).
    cbn [h_offset h_content h_version] in Rb. rewrite Eb' in Rb. injection Rb as -> _. reflexivity. }
  destruct K as [b Kb].
  exists (file_of (DatFile_version x) (front_of x) b no_random_maps [] [] [] [] closing0). split; [|destruct x; reflexivity].
  rewrite Hc. eapply from_bytes_reads; [exact V|exact L8|exact S8|]. rewrite <- Hc.
  assert (T : reads (after_strictly (DatFile_version x) (front_of x, a)) c v o (file_of (DatFile_version x) (front_of x) b no_random_maps [] [] [] [] closing0)).
  { intros ls. unfold after_strictly. unfold bind at 1. cbn [fst snd]. destruct (Kb ls) as (ls' & ->).
    assert (Le : (length c <= o + 39)%nat) by lia. revert ls'. generalize dependent (o + 39)%nat. intros o1 _ _ L1.
    match goal with |- forall l, exists h', ?m _ = Ok (?y, _) => change (reads m c v o1 y) end. do 6 by_end. apply reads_ret. }
  intros ls. rewrite parts_strictly. unfold bind. rewrite A. apply T.
Qed.
(** A file cut before that raises. *)
Theorem C30_cut_early : forall x bs p k, DatFile_wf x -> to_bytes x = Ok bs -> before_section x bs no_maps 56 p ->
  (k + 39 < length p)%nat -> exists e, from_bytes (firstn k bs) = Err e.
Proof.
  intros x bs p k W E B L. rewrite (cut_is _ _ _ _ _ B) by lia.
  destruct (get_pieces x W) as (v & bh & bf & bb & bm & be & bu & bc & bt & bz & P).
  pose proof (before_maps _ _ _ _ _ _ _ _ _ _ _ _ _ P B) as Hp.
  destruct (pc_header _ _ _ _ _ _ _ _ _ _ _ P) as (L8 & S8 & _). pose proof (pc_version _ _ _ _ _ _ _ _ _ _ _ P) as V.
  destruct (strictly_on _ _ _ _ _ _ _ _ _ _ _ P) as (a & o & l0 & E0 & Lo). rewrite <- Hp in E0, Lo.
  set (c := firstn k p). assert (Lc : length c = k) by (unfold c; rewrite firstn_length; lia).
  destruct (from_bytes c) as [y|e] eqn:F; [exfalso|exists e; reflexivity].
  destruct (from_bytes_header c) as (ls & H). rewrite F in H.
  destruct (String_from_bytes (firstn 8 c)) as [s|] eqn:S; [|discriminate H]. destruct (version_lookup s) as [w|] eqn:Vw; [|discriminate H].
  rewrite <- read_parts_eq, parts_strictly in H. destruct (bind strictly _ _) as [[y' h']|] eqn:Q; [|discriminate H].
  apply bind_inv in Q as (fa & h1 & Q & _).
  pose proof (strictly_strict _ _ _ Q) as St.
  pose proof (strictly_Rd (S := fun _ => True) I I I (mkHandler c 8 w ls)) as R. rewrite Q in R. destruct R as (Hc & O & new & _ & R).
  cbn [h_offset h_content h_version] in Hc, O, R. rewrite Hc in St.
  assert (k8 : (8 <= k)%nat) by lia.
  assert (Hs : firstn 8 c = bh).
  { unfold c. rewrite firstn_firstn, Nat.min_l by lia. rewrite Hp, <- L8, firstn_app, firstn_all, Nat.sub_diag. apply app_nil_r. }
  rewrite Hs, S8 in S. injection S as <-. rewrite version_lookup_spec, V in Vw. injection Vw as <-.
  assert (Ag : same_upto (h_offset h1) c p).
  { right. split; [exact St|]. unfold c. rewrite firstn_firstn. f_equal. lia. }
  specialize (R p [] Ag). rewrite E0 in R. injection R as _ Ho _. lia.
Qed.
(** So cuts up to the end of the terrain block are accepted exactly in its last 39 bytes. *)
Theorem C30_threshold : forall x bs p k, DatFile_wf x -> to_bytes x = Ok bs -> before_section x bs no_maps 56 p -> (k <= length p)%nat ->
  (exists y, from_bytes (firstn k bs) = Ok y) <-> (length p <= k + 39)%nat.
Proof.
  intros x bs p k W E B L. split.
  - intros [y Y]. destruct (Nat.le_gt_cases (length p) (k + 39)) as [G|G]; [exact G|]. destruct (C30_cut_early x bs p k W E B G) as [e Q]. congruence.
  - intros G. destruct (C30_cut_block x bs p k W E B (conj L G)) as (y & Y & _). eauto.
Qed.
(** A file of each version that the theorems are about; 47 bytes at least come before the end of
    its terrain block. *)
Example C30_case : forall v, v <> UNDEFINED -> exists bs p, DatFile_wf (sample v) /\ to_bytes (sample v) = Ok bs /\
  before_section (sample v) bs no_maps 56 p /\ (47 <= length p)%nat /\
  (exists e, from_bytes (firstn (length p - 40) bs) = Err e) /\ (exists y, from_bytes (firstn (length p - 39) bs) = Ok y).
Proof.
  intros v U. pose proof (sample_wf v U) as W. destruct (get_pieces _ W) as (w & bh & bf & bb & bm & be & bu & bc & bt & bz & P).
  pose proof (pc_whole _ _ _ _ _ _ _ _ _ _ _ P) as E. eexists.
  destruct (C30_boundary _ _ no_maps 56 W E (or_introl eq_refl)) as (p & B & _). exists p.
  pose proof (before_maps _ _ _ _ _ _ _ _ _ _ _ _ _ P B) as Hp.
  destruct (strictly_on _ _ _ _ _ _ _ _ _ _ _ P) as (a & o & l0 & E0 & Lo). rewrite <- Hp in E0, Lo.
  pose proof (strictly_Rd (S := fun _ => True) I I I (mkHandler p 8 w [])) as R. rewrite E0 in R. destruct R as (_ & O & _). cbn [h_offset] in O.
  split; [exact W|]. split; [exact E|]. split; [exact B|]. split; [lia|]. split.
  - eapply C30_cut_early; [exact W|exact E|exact B|lia].
  - eapply C30_threshold; [exact W|exact E|exact B|lia|lia].
Qed.
Definition all_of_this_file := (C30_integers, C30_float, C30_text, C30_text_cut, C30_struct, C30_boundary, C30_sections_before, C30_closing,
  C30_cut_block, C30_cut_early, C30_threshold, C30_case).
Print Assumptions all_of_this_file.
