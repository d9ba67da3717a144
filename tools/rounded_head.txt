(** * Tables of objects with changed floats.  Generated by tools/gen_rounded.py. *)
From Verif Require Import Base PyInt PyFloat PyStr PyStruct DataTypes Versions Common Wire Layout Shape Spec Floats.
From Verif Require Import M_Sound M_PlayerColour M_Effect M_TerrainRestriction M_Graphic
  M_TerrainBlock M_RandomMaps M_Task M_UnitHeaders M_Unit M_Civ M_Tech M_TechTree M_DatFile.
From Verif Require Import Codec Theory.
Open Scope Z_scope.
Local Open Scope list_scope.
Local Notation length := List.length.

(** ** Changing the floats of a cell, of a table *)
Definition cell_map (g : f64 -> f64) (c : cell) : cell :=
  match c with F32 x => F32 (g x) | F32s x => F32s (g x) | c => c end.
Lemma flat_norm g {A} (lay : A -> list cell) f : (forall x, map (cell_map g) (lay x) = lay (f x)) ->
  forall l, map (cell_map g) (flat_map lay l) = flat_map lay (map f l).
Proof. intros H l. induction l as [|a l IH]; [reflexivity|]. cbn [flat_map map]. rewrite map_app, H, IH. reflexivity. Qed.
Lemma flat_norm_id g {A} (lay : A -> list cell) : (forall x, map (cell_map g) (lay x) = lay x) ->
  forall l, map (cell_map g) (flat_map lay l) = flat_map lay l.
Proof. intros H l. induction l as [|a l IH]; [reflexivity|]. cbn [flat_map map]. rewrite map_app, H, IH. reflexivity. Qed.
Lemma slots_norm g {A} (lay : A -> list cell) f : (forall x, map (cell_map g) (lay x) = lay (f x)) ->
  forall l, map (cell_map g) (slots lay l) = slots lay (map (option_map f) l).
Proof. intros H l. unfold slots. apply (flat_norm _ _ (option_map f)). intros [x|]; [apply H|reflexivity]. Qed.
Lemma slots_norm_id g {A} (lay : A -> list cell) : (forall x, map (cell_map g) (lay x) = lay x) ->
  forall l, map (cell_map g) (slots lay l) = slots lay l.
Proof. intros H l. unfold slots. apply flat_norm_id. intros [x|]; [apply H|reflexivity]. Qed.
Lemma stored_norm g {A} (lay : A -> list cell) f : (forall x, map (cell_map g) (lay x) = lay (f x)) ->
  forall c o, map (cell_map g) (stored c lay o) = stored c lay (option_map f o).
Proof. intros H [] [x|]; cbn [stored opt_cells option_map]; try reflexivity. apply H. Qed.
Lemma stored_norm_id g {A} (lay : A -> list cell) : (forall x, map (cell_map g) (lay x) = lay x) ->
  forall c o, map (cell_map g) (stored c lay o) = stored c lay o.
Proof. intros H [] [x|]; cbn [stored opt_cells]; try reflexivity. apply H. Qed.
Lemma stored_norm_float g c o : map (cell_map g) (stored c (fun s => [F32 s]) o) = stored c (fun s => [F32 s]) (option_map g o).
Proof. destruct c, o; reflexivity. Qed.
Lemma norm_u8 g l : map (cell_map g) (map U8 l) = map U8 l. Proof. rewrite map_map. reflexivity. Qed.
Lemma norm_i8 g l : map (cell_map g) (map I8 l) = map I8 l. Proof. rewrite map_map. reflexivity. Qed.
Lemma norm_i16 g l : map (cell_map g) (map I16 l) = map I16 l. Proof. rewrite map_map. reflexivity. Qed.
Lemma norm_i32 g l : map (cell_map g) (map I32 l) = map I32 l. Proof. rewrite map_map. reflexivity. Qed.
Lemma norm_f32 g l : map (cell_map g) (map F32 l) = map F32 (map g l). Proof. rewrite !map_map. reflexivity. Qed.
Lemma norm_f32s g l : map (cell_map g) (map F32s l) = map F32s (map g l). Proof. rewrite !map_map. reflexivity. Qed.
Lemma norm_flags g {A} (l : list (option A)) : map (cell_map g) (flags l) = flags l.
Proof. unfold flags. rewrite map_map. apply map_ext. intros [a|]; reflexivity. Qed.
Lemma norm_guard g c l : map (cell_map g) (guard c l) = guard c (map (cell_map g) l). Proof. destruct c; reflexivity. Qed.
Lemma norm_exactly g {A} n (a : list A) l : map (cell_map g) (exactly n a l) = exactly n a (map (cell_map g) l). Proof. apply norm_guard. Qed.
Lemma exactly_map {A B} n (f : A -> B) a l : exactly n (map f a) l = exactly n a l. Proof. unfold exactly. rewrite map_length. reflexivity. Qed.
Lemma count_map {A B} (f : A -> B) l : count (map f l) = count l. Proof. unfold count. rewrite map_length. reflexivity. Qed.
Lemma flags_map {A B} (f : A -> B) l : flags (map (option_map f) l) = flags l.
Proof. unfold flags. rewrite map_map. apply map_ext. intros [a|]; reflexivity. Qed.
Lemma norm_if g (c : bool) l m : map (cell_map g) (if c then l else m) = if c then map (cell_map g) l else map (cell_map g) m. Proof. destruct c; reflexivity. Qed.
Global Hint Rewrite @map_app norm_u8 norm_i8 norm_i16 norm_i32 norm_f32 norm_f32s @norm_flags norm_guard @norm_exactly @exactly_map @count_map @flags_map norm_if
  stored_norm_float : norm_cells.
Ltac norms := autorewrite with norm_cells; cbn [map cell_map]; try reflexivity.

(** Only the header of a file is padded. *)
Definition unpadded (c : cell) : bool := match c with Padded _ _ => false | _ => true end.
Lemma np_flat {A} (lay : A -> list cell) : (forall x, forallb unpadded (lay x) = true) -> forall l, forallb unpadded (flat_map lay l) = true.
Proof. intros H l. induction l as [|a l IH]; [reflexivity|]. cbn [flat_map]. rewrite forallb_app, H, IH. reflexivity. Qed.
Lemma np_slots {A} (lay : A -> list cell) : (forall x, forallb unpadded (lay x) = true) -> forall l, forallb unpadded (slots lay l) = true.
Proof. intros H l. apply np_flat. intros [x|]; [apply H|reflexivity]. Qed.
Lemma np_stored {A} (lay : A -> list cell) : (forall x, forallb unpadded (lay x) = true) -> forall c l, forallb unpadded (stored c lay l) = true.
Proof. intros H [] [x|]; cbn [stored opt_cells]; try reflexivity. apply H. Qed.
Lemma np_stored_float c o : forallb unpadded (stored c (fun s => [F32 s]) o) = true. Proof. destruct c, o; reflexivity. Qed.
Lemma np_map {A} (mk : A -> cell) l : (forall a, unpadded (mk a) = true) -> forallb unpadded (map mk l) = true.
Proof. intros H. induction l; cbn [map forallb]; [reflexivity|]. rewrite H, IHl. reflexivity. Qed.
Lemma np_u8 l : forallb unpadded (map U8 l) = true. Proof. apply np_map. reflexivity. Qed.
Lemma np_i8 l : forallb unpadded (map I8 l) = true. Proof. apply np_map. reflexivity. Qed.
Lemma np_i16 l : forallb unpadded (map I16 l) = true. Proof. apply np_map. reflexivity. Qed.
Lemma np_i32 l : forallb unpadded (map I32 l) = true. Proof. apply np_map. reflexivity. Qed.
Lemma np_f32 l : forallb unpadded (map F32 l) = true. Proof. apply np_map. reflexivity. Qed.
Lemma np_f32s l : forallb unpadded (map F32s l) = true. Proof. apply np_map. reflexivity. Qed.
Lemma np_flags {A} (l : list (option A)) : forallb unpadded (flags l) = true. Proof. apply np_map. intros [a|]; reflexivity. Qed.
Lemma np_guard c l : forallb unpadded (guard c l) = if c then forallb unpadded l else true. Proof. destruct c; reflexivity. Qed.
Lemma np_exactly {A} n (a : list A) l : forallb unpadded (exactly n a l) = if Nat.eqb (length a) n then forallb unpadded l else true. Proof. apply np_guard. Qed.
Lemma np_if (c : bool) l m : forallb unpadded (if c then l else m) = if c then forallb unpadded l else forallb unpadded m. Proof. destruct c; reflexivity. Qed.
Lemma if_same (c : bool) : (if c then true else true) = true. Proof. destruct c; reflexivity. Qed.
Global Hint Rewrite @forallb_app np_u8 np_i8 np_i16 np_i32 np_f32 np_f32s @np_flags np_guard @np_exactly np_if np_stored_float : np_cells.
Ltac nps := autorewrite with np_cells; cbn [forallb unpadded andb]; rewrite ?if_same; cbn [andb]; try reflexivity.
