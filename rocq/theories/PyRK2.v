(** * The readers of the classes, as written: technologies and the technology tree

    Generated by tools/gen_readers.py. For each class: the method found under the name, that it can
    be handed to the array readers, and that running its text is running the typed reader. *)
From Verif Require Import Base PyInt PyFloat PyStr PyStruct DataTypes Versions Common Py Source PyRep PyPure PyW PyR PyRE PyRH PyRA PyRL PyRC PyRP PyRS PyRT Deep.
From Verif Require Import M_Tech M_TechTree.
From Coq Require Import String Ascii Lia.
Open Scope Z_scope.
Local Open Scope list_scope.
Lemma ResearchResourceCost_m : find_method source "ResearchResourceCost" "from_bytes" = Some src_ResearchResourceCost_from_bytes. Proof. look. Qed.
Lemma ResearchResourceCost_k : reader "ResearchResourceCost" "from_bytes". Proof. reader_ ResearchResourceCost_m. Qed.
Lemma ResearchResourceCost_r {ee : Era} : reads 5 "ResearchResourceCost" "from_bytes" [] ResearchResourceCost_from_bytes ResearchResourceCost_deep.
Proof. class_ ResearchResourceCost_m src_ResearchResourceCost_from_bytes ResearchResourceCost_from_bytes. Qed.
#[export] Hint Resolve ResearchResourceCost_k ResearchResourceCost_r : readers.
Lemma ResearchLocation_m : find_method source "ResearchLocation" "from_bytes" = Some src_ResearchLocation_from_bytes. Proof. look. Qed.
Lemma ResearchLocation_k : reader "ResearchLocation" "from_bytes". Proof. reader_ ResearchLocation_m. Qed.
Lemma ResearchLocation_r {ee : Era} : reads 5 "ResearchLocation" "from_bytes" [] ResearchLocation_from_bytes ResearchLocation_deep.
Proof. class_ ResearchLocation_m src_ResearchLocation_from_bytes ResearchLocation_from_bytes. Qed.
#[export] Hint Resolve ResearchLocation_k ResearchLocation_r : readers.
Lemma Tech_84_m : find_method source "Tech" "from_bytes_84" = Some src_Tech_from_bytes_84. Proof. look. Qed.
Lemma Tech_84_k : reader "Tech" "from_bytes_84". Proof. reader_ Tech_84_m. Qed.
Lemma Tech_84_r {ee : Era} : reads 8 "Tech" "from_bytes_84" [] Tech_from_bytes_84 Tech_deep.
Proof. class_ Tech_84_m src_Tech_from_bytes_84 Tech_from_bytes_84. Qed.
#[export] Hint Resolve Tech_84_k Tech_84_r : readers.
Lemma Tech_88_m : find_method source "Tech" "from_bytes_88" = Some src_Tech_from_bytes_88. Proof. look. Qed.
Lemma Tech_88_k : reader "Tech" "from_bytes_88". Proof. reader_ Tech_88_m. Qed.
Lemma Tech_88_r {ee : Era} : reads 8 "Tech" "from_bytes_88" [] Tech_from_bytes_88 Tech_deep.
Proof. class_ Tech_88_m src_Tech_from_bytes_88 Tech_from_bytes_88. Qed.
#[export] Hint Resolve Tech_88_k Tech_88_r : readers.
Lemma Tech_m : find_method source "Tech" "from_bytes" = Some src_Tech_from_bytes. Proof. look. Qed.
Lemma Tech_k : reader "Tech" "from_bytes". Proof. reader_ Tech_m. Qed.
Lemma Tech_r {ee : Era} : reads 9 "Tech" "from_bytes" [] Tech_from_bytes Tech_deep.
Proof. class_ Tech_m src_Tech_from_bytes Tech_from_bytes. Qed.
#[export] Hint Resolve Tech_k Tech_r : readers.
Lemma Common_m : find_method source "Common" "from_bytes" = Some src_Common_from_bytes. Proof. look. Qed.
Lemma Common_k : reader "Common" "from_bytes". Proof. reader_ Common_m. Qed.
Lemma Common_r {ee : Era} : reads 5 "Common" "from_bytes" [] Common_from_bytes Common_deep.
Proof. class_ Common_m src_Common_from_bytes Common_from_bytes. Qed.
#[export] Hint Resolve Common_k Common_r : readers.
Lemma TechTreeAge_m : find_method source "TechTreeAge" "from_bytes" = Some src_TechTreeAge_from_bytes. Proof. look. Qed.
Lemma TechTreeAge_k : reader "TechTreeAge" "from_bytes". Proof. reader_ TechTreeAge_m. Qed.
Lemma TechTreeAge_r {ee : Era} : reads 7 "TechTreeAge" "from_bytes" [] TechTreeAge_from_bytes TechTreeAge_deep.
Proof. class_ TechTreeAge_m src_TechTreeAge_from_bytes TechTreeAge_from_bytes. Qed.
#[export] Hint Resolve TechTreeAge_k TechTreeAge_r : readers.
Lemma BuildingConnection_m : find_method source "BuildingConnection" "from_bytes" = Some src_BuildingConnection_from_bytes. Proof. look. Qed.
Lemma BuildingConnection_k : reader "BuildingConnection" "from_bytes". Proof. reader_ BuildingConnection_m. Qed.
Lemma BuildingConnection_r {ee : Era} : reads 7 "BuildingConnection" "from_bytes" [] BuildingConnection_from_bytes BuildingConnection_deep.
Proof. class_ BuildingConnection_m src_BuildingConnection_from_bytes BuildingConnection_from_bytes. Qed.
#[export] Hint Resolve BuildingConnection_k BuildingConnection_r : readers.
Lemma UnitConnection_m : find_method source "UnitConnection" "from_bytes" = Some src_UnitConnection_from_bytes. Proof. look. Qed.
Lemma UnitConnection_k : reader "UnitConnection" "from_bytes". Proof. reader_ UnitConnection_m. Qed.
Lemma UnitConnection_r {ee : Era} : reads 7 "UnitConnection" "from_bytes" [] UnitConnection_from_bytes UnitConnection_deep.
Proof. class_ UnitConnection_m src_UnitConnection_from_bytes UnitConnection_from_bytes. Qed.
#[export] Hint Resolve UnitConnection_k UnitConnection_r : readers.
Lemma ResearchConnection_m : find_method source "ResearchConnection" "from_bytes" = Some src_ResearchConnection_from_bytes. Proof. look. Qed.
Lemma ResearchConnection_k : reader "ResearchConnection" "from_bytes". Proof. reader_ ResearchConnection_m. Qed.
Lemma ResearchConnection_r {ee : Era} : reads 7 "ResearchConnection" "from_bytes" [] ResearchConnection_from_bytes ResearchConnection_deep.
Proof. class_ ResearchConnection_m src_ResearchConnection_from_bytes ResearchConnection_from_bytes. Qed.
#[export] Hint Resolve ResearchConnection_k ResearchConnection_r : readers.
Lemma TechTree_m : find_method source "TechTree" "from_bytes" = Some src_TechTree_from_bytes. Proof. look. Qed.
Lemma TechTree_k : reader "TechTree" "from_bytes". Proof. reader_ TechTree_m. Qed.
Lemma TechTree_r {ee : Era} : reads 9 "TechTree" "from_bytes" [] TechTree_from_bytes TechTree_deep.
Proof. class_ TechTree_m src_TechTree_from_bytes TechTree_from_bytes. Qed.
#[export] Hint Resolve TechTree_k TechTree_r : readers.
