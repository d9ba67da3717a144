(** * C31: locality of edits.  Generated by tools/gen_local.py. *)
From Verif Require Import Base PyInt PyFloat PyStr PyStruct DataTypes Versions Common Wire Layout Shape Flat Spec Update Edit.
From Verif Require Import M_Sound M_PlayerColour M_Effect M_TerrainRestriction M_Graphic
  M_TerrainBlock M_RandomMaps M_Task M_UnitHeaders M_Unit M_Civ M_Tech M_TechTree M_DatFile.
From Verif Require Import Codec Theory FlatP SizeP Sample Props_Classes Props_Size.
From Coq Require Import ZifyBool.
Open Scope Z_scope.
Local Open Scope list_scope.
Local Notation length := List.length.

(** [g t] is some object with the value [t] put at one place.  Whatever is put there, the
    encoding of the object differs in the bytes of the cell [mk t] only: what is before and
    what is behind is the same for all [t]. *)
Definition stays_local {A T} (tb : A -> Version -> res bytes) (v : Version) (g : T -> A) (mk : T -> cell) : Prop :=
  exists pre post, forall t bs, tb (g t) v = Ok bs -> exists b, cell_bytes (mk t) = Some b /\ bs = pre ++ b ++ post.

(** The same about a table. *)
Definition local {T} (L : T -> list cell) (mk : T -> cell) : Prop :=
  exists pre post, forall t bs, encode (L t) = Some bs -> exists b, cell_bytes (mk t) = Some b /\ bs = pre ++ b ++ post.
Lemma by_table {A} {tb : A -> Version -> res bytes} {lay} : follows_table tb lay always ->
  forall v T (g : T -> A) mk, local (fun t => lay v (g t)) mk -> stays_local tb v g mk.
Proof.
  intros H v T g mk (pre & post & L). exists pre, post. intros t bs E. apply L. rewrite <- (H v (g t) I), E. reflexivity.
Qed.
Lemma to_table {A} {tb : A -> Version -> res bytes} {lay} : follows_table tb lay always ->
  forall v T (g : T -> A) mk, stays_local tb v g mk -> local (fun t => lay v (g t)) mk.
Proof.
  intros H v T g mk (pre & post & L). exists pre, post. intros t bs E. rewrite <- (H v (g t) I) in E.
  destruct (tb (g t) v) as [b|] eqn:F; [|discriminate]. cbn [returned] in E. apply L. congruence.
Qed.
Lemma by_table_if {A} {tb : A -> Version -> res bytes} {lay ar} : follows_table tb lay ar ->
  forall v T (g : T -> A), (forall t, ar (g t)) -> forall mk, local (fun t => lay v (g t)) mk -> stays_local tb v g mk.
Proof.
  intros H v T g Ha mk (pre & post & L). exists pre, post. intros t bs E. apply L. rewrite <- (H v (g t) (Ha t)), E. reflexivity.
Qed.
Section Local.
  Context {T : Type} {mk : T -> cell}.
  Lemma local_ext L L' : (forall t, L t = L' t) -> local L' mk -> local L mk.
  Proof. intros H (pre & post & K). exists pre, post. intros t bs E. rewrite H in E. apply K, E. Qed.
  Lemma local_here rest : local (fun t => mk t :: rest) mk.
  Proof.
    destruct (encode rest) as [r|] eqn:R.
    - exists [], r. intros t bs E. rewrite encode_cons, R in E. destruct (cell_bytes (mk t)) as [b|]; [|discriminate]. exists b. split; [reflexivity|]. injection E as <-. reflexivity.
    - exists [], []. intros t bs E. rewrite encode_cons, R in E. destruct (cell_bytes (mk t)); discriminate.
  Qed.
  Lemma local_app_r A L : local L mk -> local (fun t => A ++ L t) mk.
  Proof.
    intros (pre & post & K). destruct (encode A) as [a|] eqn:EA.
    - exists (a ++ pre), post. intros t bs E. rewrite encode_app, EA in E. destruct (encode (L t)) as [l|] eqn:EL; [|discriminate].
      destruct (K t l EL) as (b & Hb & ->). exists b. split; [exact Hb|]. injection E as <-. rewrite <- app_assoc. reflexivity.
    - exists [], []. intros t bs E. rewrite encode_app, EA in E. discriminate.
  Qed.
  Lemma local_app_l B L : local L mk -> local (fun t => L t ++ B) mk.
  Proof.
    intros (pre & post & K). destruct (encode B) as [r|] eqn:EB.
    - exists pre, (post ++ r). intros t bs E. rewrite encode_app, EB in E. destruct (encode (L t)) as [l|] eqn:EL; [|discriminate].
      destruct (K t l EL) as (b & Hb & ->). exists b. split; [exact Hb|]. injection E as <-.
      rewrite <- !app_assoc. reflexivity.
    - exists [], []. intros t bs E. rewrite encode_app, EB in E. destruct (encode (L t)); discriminate.
  Qed.
  Lemma local_cons c L : local L mk -> local (fun t => c :: L t) mk.
  Proof. intros H. apply (local_app_r [c] L H). Qed.
  Lemma local_guard c L : local L mk -> local (fun t => guard c (L t)) mk.
  Proof. intros H. unfold guard. destruct c; [exact H|]. exists [], []. discriminate. Qed.
  Lemma local_flat {A} (lay : A -> list cell) g i l : local (fun t => lay (g t)) mk -> local (fun t => flat_map lay (set_nth i (g t) l)) mk.
  Proof.
    intros H. apply local_ext with (fun t => flat_map lay (firstn i l) ++ lay (g t) ++ flat_map lay (skipn (S i) l)).
    - intros t. unfold set_nth. rewrite flat_map_app. reflexivity.
    - apply local_app_r, local_app_l, H.
  Qed.
  Lemma local_slots {A} (lay : A -> list cell) g i l : local (fun t => lay (g t)) mk -> local (fun t => slots lay (set_nth i (Some (g t)) l)) mk.
  Proof. intros H. unfold slots. apply (local_flat _ (fun t => Some (g t))), H. Qed.
  Lemma local_map i l : local (fun t => map mk (set_nth i t l)) mk.
  Proof.
    apply local_ext with (fun t => map mk (firstn i l) ++ mk t :: map mk (skipn (S i) l)).
    - intros t. unfold set_nth. rewrite map_app. reflexivity.
    - apply local_app_r, local_here.
  Qed.
  Lemma local_none : local (fun t => [Refuse]) mk.
  Proof. exists [], []. discriminate. Qed.
End Local.
Lemma length_set_nth {A} i (z : A) l : (i < length l)%nat -> length (set_nth i z l) = length l.
Proof. intros H. unfold set_nth. rewrite app_length. cbn [length]. rewrite firstn_length, skipn_length. lia. Qed.
Lemma count_set_nth {A} i (z : A) l : (i < length l)%nat -> count (set_nth i z l) = count l.
Proof. intros H. unfold count. rewrite length_set_nth by exact H. reflexivity. Qed.
Lemma flags_set_nth {A} i (z : A) l : flags (set_nth i (Some z) l) = set_nth i (I32 1) (flags l).
Proof. unfold flags, set_nth. rewrite map_app, firstn_map. cbn [map]. rewrite skipn_map. reflexivity. Qed.
Lemma first_count {T} i (g : T -> TerrainRestriction) n l : (forall t, length (TerrainRestriction_passable_buildable_dmg_multiplier (g t)) = n) -> forall t,
  match set_nth i (g t) l with [] => 0 | first :: _ => count (TerrainRestriction_passable_buildable_dmg_multiplier first) end
  = match set_nth i (Z.of_nat n) (map (fun r => count (TerrainRestriction_passable_buildable_dmg_multiplier r)) l) with [] => 0 | first :: _ => first end.
Proof.
  intros Q t. unfold set_nth. destruct i; cbn [firstn app]; [unfold count; rewrite Q; reflexivity|]. destruct l; [|reflexivity].
  cbn [firstn app map]. unfold count. rewrite Q. reflexivity.
Qed.
Lemma C07_DatFile_table : follows_table DatFile_to_bytes (fun _ => DatFile_flat_layout) always.
Proof. intros w x _. apply C07_DatFile_flat. Qed.
Ltac counts := match goal with |- local ?L _ =>
  match L with
  | context [count (set_nth _ _ _)] => eapply local_ext; [intros t; rewrite count_set_nth by assumption; reflexivity|]
  | context [length (set_nth _ _ _)] => eapply local_ext; [intros t; rewrite length_set_nth by assumption; reflexivity|]
  | context [flags (set_nth _ _ _)] => eapply local_ext; [intros t; rewrite flags_set_nth; reflexivity|]
  end end.
Ltac loc_step := first
  [ apply local_here | apply local_cons | apply local_app_r | apply local_app_l | assumption
  | apply local_map | apply local_flat; assumption | apply local_slots; assumption
  | apply local_guard
  | match goal with |- local (fun t => if ?c then _ else _) _ => destruct c end ].
Ltac loc := unfold exactly, stored, opt_cells; cbv beta iota; repeat counts; repeat loc_step.

