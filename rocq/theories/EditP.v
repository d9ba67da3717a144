(** * Lemmas about edited files. *)
From Verif Require Import Base PyInt PyFloat PyStr PyStruct DataTypes Versions Common Wire Layout Shape Flat Size Spec Update Edit FS.
From Verif Require Import M_Sound M_PlayerColour M_Effect M_TerrainRestriction M_Graphic
  M_TerrainBlock M_RandomMaps M_Task M_UnitHeaders M_Unit M_Civ M_Tech M_TechTree M_DatFile.
From Verif Require Import Codec Theory FlatP SizeP Sample ConvertE Props_Classes Props_Size.
From Coq Require Import ZifyBool.
Open Scope Z_scope.
Local Open Scope list_scope.
Local Notation length := List.length.

(** ** Lists *)
Lemma Forall_set_nth {A} (P : A -> Prop) i z l : Forall P l -> P z -> Forall P (set_nth i z l).
Proof.
  intros H Hz. revert i. induction H as [|a l Ha H IH]; intros [|i].
  - constructor; [exact Hz|constructor].
  - unfold set_nth. cbn. constructor; [exact Hz|constructor].
  - unfold set_nth. cbn. constructor; assumption.
  - change (set_nth (S i) z (a :: l)) with (a :: set_nth i z l). constructor; [exact Ha|apply IH].
Qed.
Lemma nth_in {A} i (l : list A) a : nth_error l i = Some a -> In a l.
Proof. apply nth_error_In. Qed.
Lemma set_same_nth {A} i (a : A) l : nth_error l i = Some a -> set_nth i a l = l.
Proof.
  revert i. induction l as [|b l IH]; intros [|i] H; try discriminate; cbn [nth_error] in H; [injection H as ->; reflexivity|].
  change (set_nth (S i) a (b :: l)) with (b :: set_nth i a l). rewrite IH by exact H. reflexivity.
Qed.
Lemma set_set_nth {A} i (a b : A) l : (i < length l)%nat -> set_nth i a (set_nth i b l) = set_nth i a l.
Proof.
  revert i. induction l as [|c l IH]; intros [|i] H; cbn in H; try lia; [reflexivity|].
  change (c :: set_nth i a (set_nth i b l) = c :: set_nth i a l). rewrite (IH i) by lia. reflexivity.
Qed.
Lemma nth_set_nth {A} i (a : A) l : (i < length l)%nat -> nth_error (set_nth i a l) i = Some a.
Proof.
  revert i. induction l as [|c l IH]; intros [|i] H; cbn in H; try lia; [reflexivity|].
  apply (IH i). lia.
Qed.
Lemma nth_other {A} i k (a : A) l : (i < length l)%nat -> k <> i -> nth_error (set_nth i a l) k = nth_error l k.
Proof.
  revert i k. induction l as [|c l IH]; intros [|i] [|k] H N; cbn in H; try lia; try reflexivity.
  apply (IH i k); lia.
Qed.

(** ** Parts of well-formed files *)
Lemma wf_parts u x : DatFile_wf x -> file_version (DatFile_version x) = Some u ->
  (Forall (fun c => cells_ok (Civ_layout u c) /\ Civ_shape u c) (DatFile_civs x) /\ count (DatFile_civs x) < 32768) /\
  (Forall (fun t => cells_ok (Tech_layout u t) /\ Tech_shape u t) (DatFile_techs x) /\ count (DatFile_techs x) < 32768).
Proof.
  intros [H S] V. unfold DatFile_layout in H. rewrite V in H. apply cells_ok_guard in H. destruct H as [_ H].
  apply cells_ok_app in H. destruct H as [_ H]. unfold DatFile_body in H. rewrite !cells_ok_app in H.
  unfold DatFile_shape in S. rewrite V in S. unfold DatFile_body_shape in S. destruct S as (_ & _ & _ & _ & _ & S1 & S2 & _).
  destruct H as (_ & _ & _ & _ & _ & _ & _ & _ & _ & _ & _ & _ & _ & _ & _ & _ & _ & C1 & C2 & T1 & T2 & _).
  assert (K : forall A (l : list A), cells_ok [I16 (count l)] -> count l < 32768).
  { intros A l K. unfold cells_ok in K. cbn [forallb] in K. rewrite andb_true_r in K. unfold cell_ok, within in K. clear -K. lia. }
  apply cells_ok_flat_map in C2. apply cells_ok_flat_map in T2.
  split; split; try (apply K; assumption).
  - clear -C2 S1. rewrite Forall_forall in *. auto.
  - clear -T2 S2. rewrite Forall_forall in *. auto.
Qed.
(** Replacing the techs of a well-formed file by well-formed ones. *)
Lemma with_techs_wf u x l : DatFile_wf x -> file_version (DatFile_version x) = Some u ->
  Forall (fun c => cells_ok (Tech_layout u c) /\ Tech_shape u c) l -> count l < 32768 ->
  DatFile_wf (with_DatFile_techs l x).
Proof.
  intros [H S] V F C. split.
  - unfold DatFile_layout in *. replace (DatFile_version (with_DatFile_techs l x)) with (DatFile_version x) by (destruct x; reflexivity). rewrite V in *.
    apply cells_ok_guard in H. destruct H as [G H]. apply cells_ok_guard. split; [destruct x; exact G|].
    apply cells_ok_app in H. destruct H as [H1 H]. apply cells_ok_app. split; [exact H1|].
    unfold DatFile_body, terrains_used in *. rewrite !cells_ok_app in *.
    assert (C1 : cells_ok [I16 (count (DatFile_techs (with_DatFile_techs l x)))]).
    { replace (DatFile_techs _) with l by (destruct x; reflexivity). unfold cells_ok. cbn [forallb cell_ok]. unfold within, count in *. unfold cell_ok, within. lia. }
    assert (C2 : cells_ok (flat_map (Tech_layout u) (DatFile_techs (with_DatFile_techs l x)))).
    { replace (DatFile_techs _) with l by (destruct x; reflexivity). apply cells_ok_flat_map. eapply Forall_impl; [|exact F]. intros c Hc. apply Hc. }
    revert C1 C2. generalize (DatFile_techs (with_DatFile_techs l x)). intros cs C1 C2. destruct x; cbn in *. tauto.
  - unfold DatFile_shape in *. replace (DatFile_version (with_DatFile_techs l x)) with (DatFile_version x) by (destruct x; reflexivity). rewrite V in *.
    unfold DatFile_body_shape, terrains_used in *. destruct x; cbn -[TerrainBlock_shape RandomMaps_shape TechTree_shape] in *.
    assert (C2 : Forall (Tech_shape u) l) by (eapply Forall_impl; [|exact F]; intros c Hc; apply Hc). tauto.
Qed.
