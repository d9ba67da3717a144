(** * The readers of the classes, as written: what can be trained, and buildings

    Generated by tools/gen_readers.py. For each class: the method found under the name, that it can
    be handed to the array readers, and that running its text is running the typed reader. *)
From Verif Require Import Base PyInt PyFloat PyStr PyStruct DataTypes Versions Common Py Source PyRep PyPure PyW PyR PyRE PyRH PyRA PyRL PyRC PyRP PyRS PyRT Deep.
From Verif Require Import M_Unit.
From Coq Require Import String Ascii Lia.
Open Scope Z_scope.
Local Open Scope list_scope.
Lemma ResourceCost_m : find_method source "ResourceCost" "from_bytes" = Some src_ResourceCost_from_bytes. Proof. look. Qed.
Lemma ResourceCost_k : reader "ResourceCost" "from_bytes". Proof. reader_ ResourceCost_m. Qed.
Lemma ResourceCost_r {ee : Era} : reads 5 "ResourceCost" "from_bytes" [] ResourceCost_from_bytes ResourceCost_deep.
Proof. class_ ResourceCost_m src_ResourceCost_from_bytes ResourceCost_from_bytes. Qed.
#[export] Hint Resolve ResourceCost_k ResourceCost_r : readers.
Lemma TrainLocation_84_m : find_method source "TrainLocation" "from_bytes_84" = Some src_TrainLocation_from_bytes_84. Proof. look. Qed.
Lemma TrainLocation_84_k : reader "TrainLocation" "from_bytes_84". Proof. reader_ TrainLocation_84_m. Qed.
Lemma TrainLocation_84_r {ee : Era} : reads 5 "TrainLocation" "from_bytes_84" [] TrainLocation_from_bytes_84 TrainLocation_deep.
Proof. class_ TrainLocation_84_m src_TrainLocation_from_bytes_84 TrainLocation_from_bytes_84. Qed.
#[export] Hint Resolve TrainLocation_84_k TrainLocation_84_r : readers.
Lemma TrainLocation_88_m : find_method source "TrainLocation" "from_bytes_88" = Some src_TrainLocation_from_bytes_88. Proof. look. Qed.
Lemma TrainLocation_88_k : reader "TrainLocation" "from_bytes_88". Proof. reader_ TrainLocation_88_m. Qed.
Lemma TrainLocation_88_r {ee : Era} : reads 5 "TrainLocation" "from_bytes_88" [] TrainLocation_from_bytes_88 TrainLocation_deep.
Proof. class_ TrainLocation_88_m src_TrainLocation_from_bytes_88 TrainLocation_from_bytes_88. Qed.
#[export] Hint Resolve TrainLocation_88_k TrainLocation_88_r : readers.
Lemma TrainLocation_m : find_method source "TrainLocation" "from_bytes" = Some src_TrainLocation_from_bytes. Proof. look. Qed.
Lemma TrainLocation_k : reader "TrainLocation" "from_bytes". Proof. reader_ TrainLocation_m. Qed.
Lemma TrainLocation_r {ee : Era} : reads 6 "TrainLocation" "from_bytes" [] TrainLocation_from_bytes TrainLocation_deep.
Proof. class_ TrainLocation_m src_TrainLocation_from_bytes TrainLocation_from_bytes. Qed.
#[export] Hint Resolve TrainLocation_k TrainLocation_r : readers.
Lemma Creatable_78_m : find_method source "Creatable" "from_bytes_78" = Some src_Creatable_from_bytes_78. Proof. look. Qed.
Lemma Creatable_78_k : reader "Creatable" "from_bytes_78". Proof. reader_ Creatable_78_m. Qed.
Lemma Creatable_78_r {ee : Era} : the_era <> New -> reads 8 "Creatable" "from_bytes_78" [] Creatable_from_bytes_78 Creatable_deep.
Proof. intros NE. class_ Creatable_78_m src_Creatable_from_bytes_78 Creatable_from_bytes_78. Qed.
#[export] Hint Resolve Creatable_78_k Creatable_78_r : readers.
Lemma Creatable_84_m : find_method source "Creatable" "from_bytes_84" = Some src_Creatable_from_bytes_84. Proof. look. Qed.
Lemma Creatable_84_k : reader "Creatable" "from_bytes_84". Proof. reader_ Creatable_84_m. Qed.
Lemma Creatable_84_r {ee : Era} : the_era <> Old -> reads 8 "Creatable" "from_bytes_84" [] Creatable_from_bytes_84 Creatable_deep.
Proof. intros NE. class_ Creatable_84_m src_Creatable_from_bytes_84 Creatable_from_bytes_84. Qed.
#[export] Hint Resolve Creatable_84_k Creatable_84_r : readers.
Lemma Creatable_88_m : find_method source "Creatable" "from_bytes_88" = Some src_Creatable_from_bytes_88. Proof. look. Qed.
Lemma Creatable_88_k : reader "Creatable" "from_bytes_88". Proof. reader_ Creatable_88_m. Qed.
Lemma Creatable_88_r {ee : Era} : the_era <> Old -> reads 8 "Creatable" "from_bytes_88" [] Creatable_from_bytes_88 Creatable_deep.
Proof. intros NE. class_ Creatable_88_m src_Creatable_from_bytes_88 Creatable_from_bytes_88. Qed.
#[export] Hint Resolve Creatable_88_k Creatable_88_r : readers.
Lemma Creatable_m : find_method source "Creatable" "from_bytes" = Some src_Creatable_from_bytes. Proof. look. Qed.
Lemma Creatable_k : reader "Creatable" "from_bytes". Proof. reader_ Creatable_m. Qed.
Lemma Creatable_r {ee : Era} : reads 9 "Creatable" "from_bytes" [] Creatable_from_bytes Creatable_deep.
Proof.
  enter_ Creatable_m src_Creatable_from_bytes Creatable_from_bytes. pose proof (at_fits _ _ _ (i_at _ _ _ _ _ I)) as F. unfold fits in F.
  assert (G : version_ge (h_version hd) VER_88 = true -> version_ge (h_version hd) VER_84 = true) by (destruct (h_version hd); intros X; try reflexivity; discriminate X).
  repeat flow_.
  - assert (the_era <> Old) by (intros X; rewrite X in F; rewrite G in F by reflexivity; discriminate F). flow_.
  - assert (the_era <> Old) by (intros X; rewrite X in F; discriminate F). flow_.
  - assert (the_era <> New) by (intros X; rewrite X in F; discriminate F). flow_.
Qed.
#[export] Hint Resolve Creatable_k Creatable_r : readers.
Lemma BuildingAnnex_m : find_method source "BuildingAnnex" "from_bytes" = Some src_BuildingAnnex_from_bytes. Proof. look. Qed.
Lemma BuildingAnnex_k : reader "BuildingAnnex" "from_bytes". Proof. reader_ BuildingAnnex_m. Qed.
Lemma BuildingAnnex_r {ee : Era} : reads 5 "BuildingAnnex" "from_bytes" [] BuildingAnnex_from_bytes BuildingAnnex_deep.
Proof. class_ BuildingAnnex_m src_BuildingAnnex_from_bytes BuildingAnnex_from_bytes. Qed.
#[export] Hint Resolve BuildingAnnex_k BuildingAnnex_r : readers.
Lemma Building_m : find_method source "Building" "from_bytes" = Some src_Building_from_bytes. Proof. look. Qed.
Lemma Building_k : reader "Building" "from_bytes". Proof. reader_ Building_m. Qed.
Lemma Building_r {ee : Era} : reads 7 "Building" "from_bytes" [] Building_from_bytes Building_deep.
Proof. class_ Building_m src_Building_from_bytes Building_from_bytes. Qed.
#[export] Hint Resolve Building_k Building_r : readers.
