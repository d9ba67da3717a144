(** * C23 (out-of-range values never wrap) and C24 (counts that do not fit).
    Generated by tools/gen_range.py. *)
From Verif Require Import Base PyInt PyFloat PyStr PyStruct DataTypes Versions Common Wire Layout Shape Flat Spec Update Stored.
From Verif Require Import M_Sound M_PlayerColour M_Effect M_TerrainRestriction M_Graphic
  M_TerrainBlock M_RandomMaps M_Task M_UnitHeaders M_Unit M_Civ M_Tech M_TechTree M_DatFile.
From Verif Require Import Codec Theory FlatP Sample Props_Classes Props_Size Props_Slots.
From Coq Require Import String ZifyBool.
Open Scope Z_scope.
Local Open Scope list_scope.
Local Notation length := List.length.

(** An integer cell whose value is in the range of its width; other cells are not concerned. *)
Definition in_range (c : cell) : Prop :=
  match c with
  | U8 z => 0 <= z <= 255 | I8 z => -128 <= z <= 127
  | U16 z => 0 <= z <= 65535 | I16 z => -32768 <= z <= 32767
  | U32 z => 0 <= z <= 4294967295 | I32 z => -2147483648 <= z <= 2147483647
  | _ => True
  end.
(** The bytes hold exactly the value of the integer cell: so many bytes, and read back as an
    unsigned or two's complement little-endian integer they give the value. *)
Definition holds (c : cell) (b : bytes) : Prop :=
  match c with
  | U8 z => length b = 1%nat /\ int_from_bytes b false = z
  | I8 z => length b = 1%nat /\ int_from_bytes b true = z
  | U16 z => length b = 2%nat /\ int_from_bytes b false = z
  | I16 z => length b = 2%nat /\ int_from_bytes b true = z
  | U32 z => length b = 4%nat /\ int_from_bytes b false = z
  | I32 z => length b = 4%nat /\ int_from_bytes b true = z
  | _ => True
  end.
Lemma int_cell_stored mk n s z b : int_cell mk n s -> cell_bytes (mk z) = Some b ->
  length b = n /\ int_from_bytes b s = z /\ int_fits n s z = true.
Proof.
  intros H E. rewrite (int_cell_bytes mk n s z H) in E. destruct (int_fits n s z) eqn:F; [|discriminate].
  injection E as <-. split; [apply le_bytes_length|]. split; [apply (int_roundtrip n s z F)|reflexivity].
Qed.
Lemma cell_stored c b : cell_bytes c = Some b -> in_range c /\ holds c b.
Proof.
  destruct c; intros E; try (split; exact I).
  - destruct (int_cell_stored U8 1 false z b ic_u8 E) as (L & V & F). rewrite <- fits_u8 in F. apply within_spec in F. split; [exact F|split; assumption].
  - destruct (int_cell_stored I8 1 true z b ic_i8 E) as (L & V & F). rewrite <- fits_i8 in F. apply within_spec in F. split; [exact F|split; assumption].
  - destruct (int_cell_stored U16 2 false z b ic_u16 E) as (L & V & F). rewrite <- fits_u16 in F. apply within_spec in F. split; [exact F|split; assumption].
  - destruct (int_cell_stored I16 2 true z b ic_i16 E) as (L & V & F). rewrite <- fits_i16 in F. apply within_spec in F. split; [exact F|split; assumption].
  - destruct (int_cell_stored U32 4 false z b ic_u32 E) as (L & V & F). rewrite <- fits_u32 in F. apply within_spec in F. split; [exact F|split; assumption].
  - destruct (int_cell_stored I32 4 true z b ic_i32 E) as (L & V & F). rewrite <- fits_i32 in F. apply within_spec in F. split; [exact F|split; assumption].
Qed.
Lemma encode_split pre c post bs : encode (pre ++ c :: post) = Some bs ->
  exists a b d, encode pre = Some a /\ cell_bytes c = Some b /\ encode post = Some d /\ bs = a ++ b ++ d.
Proof.
  rewrite encode_app, encode_cons. destruct (encode pre) as [a|]; [|discriminate]. destruct (cell_bytes c) as [b|]; [|discriminate].
  destruct (encode post) as [d|]; [|discriminate]. intros [= <-]. exists a, b, d. auto.
Qed.
(** A record's writer returns only if every integer of its table is in range, and then every
    integer is stored as itself at its place in the table; otherwise it raises. *)
Definition range_checked {A} (tb : A -> Version -> res bytes) (lay : Version -> A -> list cell) : Prop :=
  forall v x,
    (forall bs pre c post, tb x v = Ok bs -> lay v x = pre ++ c :: post ->
      in_range c /\ exists a b d, bs = a ++ b ++ d /\ encode pre = Some a /\ holds c b) /\
    (forall c, In c (lay v x) -> ~ in_range c -> exists e, tb x v = Err e).
Lemma table_range {A} (tb : A -> Version -> res bytes) lay : follows_table tb lay always -> range_checked tb lay.
Proof.
  intros H v x. specialize (H v x I). split.
  - intros bs pre c post E L. rewrite E, L in H. cbn [returned] in H. symmetry in H.
    apply encode_split in H as (a & b & d & Ea & Eb & _ & ->). apply cell_stored in Eb as [R S]. split; [exact R|]. eauto 6.
  - intros c Hc N. destruct (tb x v) as [bs|e]; [|eauto]. exfalso. cbn [returned] in H. symmetry in H.
    apply in_split in Hc as (pre & post & L). rewrite L in H. apply encode_split in H as (a & b & d & _ & Eb & _).
    apply cell_stored in Eb as [R _]. contradiction.
Qed.
Lemma range_in {A} {tb : A -> Version -> res bytes} {lay v x bs c} : range_checked tb lay -> tb x v = Ok bs -> In c (lay v x) -> in_range c.
Proof.
  intros H E I. destruct (H v x) as [H1 _]. apply in_split in I as (pre & post & L). exact (proj1 (H1 bs pre c post E L)).
Qed.
Lemma count_u8 {A B} {tb : A -> Version -> res bytes} {lay v x bs} : range_checked tb lay -> tb x v = Ok bs ->
  forall l : list B, In (U8 (count l)) (lay v x) -> (length l <= Z.to_nat 255)%nat.
Proof. intros H E l I. apply (range_in H E) in I. cbn in I. unfold count in I. lia. Qed.
Lemma count_i16 {A B} {tb : A -> Version -> res bytes} {lay v x bs} : range_checked tb lay -> tb x v = Ok bs ->
  forall l : list B, In (I16 (count l)) (lay v x) -> (length l <= Z.to_nat 32767)%nat.
Proof. intros H E l I. apply (range_in H E) in I. cbn in I. unfold count in I. lia. Qed.
Lemma count_u32 {A B} {tb : A -> Version -> res bytes} {lay v x bs} : range_checked tb lay -> tb x v = Ok bs ->
  forall l : list B, In (U32 (count l)) (lay v x) -> (length l <= Z.to_nat 4294967295)%nat.
Proof. intros H E l I. apply (range_in H E) in I. cbn in I. unfold count in I. lia. Qed.
Ltac in_cells := unfold guard; repeat match goal with |- context [if ?c then _ else _] => destruct c end; rewrite ?in_app_iff; cbn [In]; tauto.

(** ** C23 *)
