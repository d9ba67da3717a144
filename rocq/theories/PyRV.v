(** * Reading a unit, as written *)
From Verif Require Import Base PyInt PyFloat PyStr PyStruct DataTypes Versions Common Py Source PyRep PyPure PyPureSim PyW PyR PyRE PyRH PyRA PyRL PyRC PyRP PyRS PyRT Deep.
From Verif Require Import M_Unit PyRK3 PyRK4 PyRU.
From Coq Require Import String Ascii Lia Permutation.
Open Scope Z_scope.
Local Open Scope list_scope.

Lemma Unit_84_m : find_method source "Unit" "from_bytes_84" = Some src_Unit_from_bytes_84. Proof. look. Qed.
Lemma Unit_84_k : reader "Unit" "from_bytes_84". Proof. reader_ Unit_84_m. Qed.
Lemma Unit_84_r {ee : Era} : reads 13 "Unit" "from_bytes_84" [] Unit_from_bytes_84 Unit_deep.
Proof.
  enter_ Unit_84_m src_Unit_from_bytes_84 Unit_from_bytes_84.
  flow_.
  repeat one_.
  match goal with I : inv _ _ _ ?hd ?h |- context [UnitType_Flag <=? ?t] =>
    eapply (parts_run (B := Unit) _ _ _ _ _ _ _ _ t); [lia|apply same_refl|reflexivity..|exact I|clear I; intros ? ? ? ? ? ? ? ? ? ? ? ? ? ? ? ? ? SE I; cbv beta iota] end.
  match goal with I : inv _ _ (?a :: ?b :: ?L) _ _ |- _ => apply (inv_perm _ _ _ (b :: a :: L)) in I; [|apply perm_swap] end.
  match goal with I : inv _ _ _ ?hd ?h |- _ =>
    eapply (hot_84_run (B := Unit)); [lia|exact SE|reflexivity|reflexivity|reflexivity|exact I|clear I; intros ? ? I; cbv beta] end.
  match goal with I : inv _ _ _ ?hd ?h |- ok _ _ (run _ _ (SReturn (ECall (EName "cls") _) :: _) _ _) (ret _ _) =>
      eapply s_return_new; [lia|exact SE|reflexivity|look|reflexivity|simple_eq_|reflexivity|reflexivity|exact I|reflexivity|] end.
  repeat take_.
Qed.

Lemma Unit_88_m : find_method source "Unit" "from_bytes_88" = Some src_Unit_from_bytes_88. Proof. look. Qed.
Lemma Unit_88_k : reader "Unit" "from_bytes_88". Proof. reader_ Unit_88_m. Qed.
Lemma Unit_88_r {ee : Era} : reads 13 "Unit" "from_bytes_88" [] Unit_from_bytes_88 Unit_deep.
Proof.
  enter_ Unit_88_m src_Unit_from_bytes_88 Unit_from_bytes_88.
  flow_.
  repeat one_.
  match goal with I : inv _ _ _ ?hd ?h |- context [UnitType_Flag <=? ?t] =>
    eapply (parts_run (B := Unit) _ _ _ _ _ _ _ _ t); [lia|apply same_refl|reflexivity..|exact I|clear I; intros ? ? ? ? ? ? ? ? ? ? ? ? ? ? ? ? ? SE I; cbv beta iota] end.
  match goal with I : inv _ _ (?a :: ?b :: ?L) _ _ |- _ => apply (inv_perm _ _ _ (b :: a :: L)) in I; [|apply perm_swap] end.
  match goal with I : inv _ _ _ ?hd ?h |- _ =>
    eapply (hot_88_run (B := Unit)); [exact SE|reflexivity|reflexivity|exact I|clear SE; intros ? ? SE; cbv beta] end.
  match goal with I : inv _ _ _ ?hd ?h |- ok _ _ (run _ _ (SReturn (ECall (EName "cls") _) :: _) _ _) (ret _ _) =>
      eapply s_return_new; [lia|exact SE|reflexivity|look|reflexivity|simple_eq_|reflexivity|reflexivity|exact I|reflexivity|] end.
  repeat take_.
Qed.
#[export] Hint Resolve Unit_84_k Unit_84_r Unit_88_k Unit_88_r : readers.
Lemma Unit_m : find_method source "Unit" "from_bytes" = Some src_Unit_from_bytes. Proof. look. Qed.
Lemma Unit_k : reader "Unit" "from_bytes". Proof. reader_ Unit_m. Qed.
Lemma Unit_r {ee : Era} : reads 14 "Unit" "from_bytes" [] Unit_from_bytes Unit_deep.
Proof. class_ Unit_m src_Unit_from_bytes Unit_from_bytes. Qed.
#[export] Hint Resolve Unit_k Unit_r : readers.
