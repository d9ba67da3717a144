(** * The readers of the classes, as written: tasks and the smaller parts of a unit

    Generated by tools/gen_readers.py. For each class: the method found under the name, that it can
    be handed to the array readers, and that running its text is running the typed reader. *)
From Verif Require Import Base PyInt PyFloat PyStr PyStruct DataTypes Versions Common Py Source PyRep PyPure PyW PyR PyRE PyRH PyRA PyRL PyRC PyRP PyRS PyRT Deep.
From Verif Require Import M_Task M_UnitHeaders M_Unit.
From Coq Require Import String Ascii Lia.
Open Scope Z_scope.
Local Open Scope list_scope.
Lemma Task_84_m : find_method source "Task" "from_bytes_84" = Some src_Task_from_bytes_84. Proof. look. Qed.
Lemma Task_84_k : reader "Task" "from_bytes_84". Proof. reader_ Task_84_m. Qed.
Lemma Task_84_r {ee : Era} : reads 5 "Task" "from_bytes_84" [] Task_from_bytes_84 Task_deep.
Proof. class_ Task_84_m src_Task_from_bytes_84 Task_from_bytes_84. Qed.
#[export] Hint Resolve Task_84_k Task_84_r : readers.
Lemma Task_88_m : find_method source "Task" "from_bytes_88" = Some src_Task_from_bytes_88. Proof. look. Qed.
Lemma Task_88_k : reader "Task" "from_bytes_88". Proof. reader_ Task_88_m. Qed.
Lemma Task_88_r {ee : Era} : reads 5 "Task" "from_bytes_88" [] Task_from_bytes_88 Task_deep.
Proof. class_ Task_88_m src_Task_from_bytes_88 Task_from_bytes_88. Qed.
#[export] Hint Resolve Task_88_k Task_88_r : readers.
Lemma Task_m : find_method source "Task" "from_bytes" = Some src_Task_from_bytes. Proof. look. Qed.
Lemma Task_k : reader "Task" "from_bytes". Proof. reader_ Task_m. Qed.
Lemma Task_r {ee : Era} : reads 6 "Task" "from_bytes" [] Task_from_bytes Task_deep.
Proof. class_ Task_m src_Task_from_bytes Task_from_bytes. Qed.
#[export] Hint Resolve Task_k Task_r : readers.
Lemma UnitHeaders_m : find_method source "UnitHeaders" "from_bytes" = Some src_UnitHeaders_from_bytes. Proof. look. Qed.
Lemma UnitHeaders_k : reader "UnitHeaders" "from_bytes". Proof. reader_ UnitHeaders_m. Qed.
Lemma UnitHeaders_r {ee : Era} : reads 8 "UnitHeaders" "from_bytes" [] UnitHeaders_from_bytes UnitHeaders_deep.
Proof. class_ UnitHeaders_m src_UnitHeaders_from_bytes UnitHeaders_from_bytes. Qed.
#[export] Hint Resolve UnitHeaders_k UnitHeaders_r : readers.
Lemma ResourceStorage_m : find_method source "ResourceStorage" "from_bytes" = Some src_ResourceStorage_from_bytes. Proof. look. Qed.
Lemma ResourceStorage_k : reader "ResourceStorage" "from_bytes". Proof. reader_ ResourceStorage_m. Qed.
Lemma ResourceStorage_r {ee : Era} : reads 5 "ResourceStorage" "from_bytes" [] ResourceStorage_from_bytes ResourceStorage_deep.
Proof. class_ ResourceStorage_m src_ResourceStorage_from_bytes ResourceStorage_from_bytes. Qed.
#[export] Hint Resolve ResourceStorage_k ResourceStorage_r : readers.
Lemma DamageGraphic_m : find_method source "DamageGraphic" "from_bytes" = Some src_DamageGraphic_from_bytes. Proof. look. Qed.
Lemma DamageGraphic_k : reader "DamageGraphic" "from_bytes". Proof. reader_ DamageGraphic_m. Qed.
Lemma DamageGraphic_r {ee : Era} : reads 5 "DamageGraphic" "from_bytes" [] DamageGraphic_from_bytes DamageGraphic_deep.
Proof. class_ DamageGraphic_m src_DamageGraphic_from_bytes DamageGraphic_from_bytes. Qed.
#[export] Hint Resolve DamageGraphic_k DamageGraphic_r : readers.
Lemma DeadFish_m : find_method source "DeadFish" "from_bytes" = Some src_DeadFish_from_bytes. Proof. look. Qed.
Lemma DeadFish_k : reader "DeadFish" "from_bytes". Proof. reader_ DeadFish_m. Qed.
Lemma DeadFish_r {ee : Era} : reads 5 "DeadFish" "from_bytes" [] DeadFish_from_bytes DeadFish_deep.
Proof. class_ DeadFish_m src_DeadFish_from_bytes DeadFish_from_bytes. Qed.
#[export] Hint Resolve DeadFish_k DeadFish_r : readers.
Lemma Bird_m : find_method source "Bird" "from_bytes" = Some src_Bird_from_bytes. Proof. look. Qed.
Lemma Bird_k : reader "Bird" "from_bytes". Proof. reader_ Bird_m. Qed.
Lemma Bird_r {ee : Era} : reads 8 "Bird" "from_bytes" [] Bird_from_bytes Bird_deep.
Proof. class_ Bird_m src_Bird_from_bytes Bird_from_bytes. Qed.
#[export] Hint Resolve Bird_k Bird_r : readers.
Lemma AttackOrArmor_m : find_method source "AttackOrArmor" "from_bytes" = Some src_AttackOrArmor_from_bytes. Proof. look. Qed.
Lemma AttackOrArmor_k : reader "AttackOrArmor" "from_bytes". Proof. reader_ AttackOrArmor_m. Qed.
Lemma AttackOrArmor_r {ee : Era} : reads 5 "AttackOrArmor" "from_bytes" [] AttackOrArmor_from_bytes AttackOrArmor_deep.
Proof. class_ AttackOrArmor_m src_AttackOrArmor_from_bytes AttackOrArmor_from_bytes. Qed.
#[export] Hint Resolve AttackOrArmor_k AttackOrArmor_r : readers.
Lemma Type50_m : find_method source "Type50" "from_bytes" = Some src_Type50_from_bytes. Proof. look. Qed.
Lemma Type50_k : reader "Type50" "from_bytes". Proof. reader_ Type50_m. Qed.
Lemma Type50_r {ee : Era} : reads 7 "Type50" "from_bytes" [] Type50_from_bytes Type50_deep.
Proof. class_ Type50_m src_Type50_from_bytes Type50_from_bytes. Qed.
#[export] Hint Resolve Type50_k Type50_r : readers.
Lemma Projectile_m : find_method source "Projectile" "from_bytes" = Some src_Projectile_from_bytes. Proof. look. Qed.
Lemma Projectile_k : reader "Projectile" "from_bytes". Proof. reader_ Projectile_m. Qed.
Lemma Projectile_r {ee : Era} : reads 5 "Projectile" "from_bytes" [] Projectile_from_bytes Projectile_deep.
Proof. class_ Projectile_m src_Projectile_from_bytes Projectile_from_bytes. Qed.
#[export] Hint Resolve Projectile_k Projectile_r : readers.
