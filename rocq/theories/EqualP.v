(** * Equality of objects is equality of their trees.  Generated by tools/gen_equal.py. *)
From Verif Require Import Base PyFloat PyStr FS Spec Dump Floats Equal.
From Verif Require Import M_Sound M_PlayerColour M_Effect M_TerrainRestriction M_Graphic
  M_TerrainBlock M_RandomMaps M_Task M_UnitHeaders M_Unit M_Civ M_Tech M_TechTree M_DatFile.
From Coq Require Import String.
Open Scope Z_scope.
Local Open Scope list_scope.

Fixpoint same (t u : tree) {struct t} : bool :=
  match t, u with
  | TNull, TNull => true
  | TInt a, TInt b => int_eq a b
  | TFloat a, TFloat b => float_eq a b
  | TText a, TText b => str_eq a b
  | TList l, TList m => (fix go l m {struct l} := match l, m with [], [] => true | a :: l, b :: m => same a b && go l m | _, _ => false end) l m
  | TDict l, TDict m => (fix go (l m : list (string * tree)) {struct l} := match l, m with [], [] => true
      | (j, a) :: l, (k, b) :: m => String.eqb j k && (same a b && go l m) | _, _ => false end) l m
  | _, _ => false
  end.
Fixpoint tree_floats (g : f64 -> f64) (t : tree) : tree :=
  match t with
  | TFloat x => TFloat (g x)
  | TList l => TList (map (tree_floats g) l)
  | TDict l => TDict (map (fun kt => (fst kt, tree_floats g (snd kt))) l)
  | t => t
  end.
Definition cmp {A} (f : A -> tree) (e : A -> A -> bool) : Prop := (forall x y, same (f x) (f y) = e x y) /\ (forall x, f x <> TNull).
Lemma cmp_int : cmp TInt int_eq. Proof. split; [reflexivity|discriminate]. Qed.
Lemma cmp_float : cmp TFloat float_eq. Proof. split; [reflexivity|discriminate]. Qed.
Lemma cmp_str : cmp TText str_eq. Proof. split; [reflexivity|discriminate]. Qed.
Lemma cmp_list {A} (f : A -> tree) e : (forall x y, same (f x) (f y) = e x y) -> cmp (fun l => TList (map f l)) (list_eq e).
Proof.
  intros H. split; [|discriminate]. intros x. induction x as [|a l IH]; intros [|b m]; try reflexivity.
  cbn [map list_eq]. change (same (TList (f a :: map f l)) (TList (f b :: map f m))) with (same (f a) (f b) && same (TList (map f l)) (TList (map f m))).
  rewrite H, IH. reflexivity.
Qed.
Lemma cmp_option {A} (f : A -> tree) e : cmp f e -> forall x y, same (of_option f x) (of_option f y) = option_eq e x y.
Proof.
  intros [H N] [x|] [y|]; cbn [of_option option_eq]; try reflexivity; [apply H| |].
  - specialize (N x). destruct (f x); try reflexivity. contradiction.
  - specialize (N y). destruct (f y); try reflexivity. contradiction.
Qed.
Lemma dict_step k a b l m e r : same a b = e -> same (TDict l) (TDict m) = tuple_eq r -> same (TDict ((k, a) :: l)) (TDict ((k, b) :: m)) = tuple_eq (e :: r).
Proof. intros E R. change (tuple_eq (e :: r)) with (e && tuple_eq r). rewrite <- E, <- R. cbn [same]. rewrite String.eqb_refl. reflexivity. Qed.
Definition moves {A} (g : f64 -> f64) (f : A -> tree) (h : A -> A) : Prop := forall x, tree_floats g (f x) = f (h x).
Definition keeps_ {A} (g : f64 -> f64) (f : A -> tree) : Prop := forall x, tree_floats g (f x) = f x.
Lemma moves_list {A} g (f : A -> tree) h : moves g f h -> moves g (fun l => TList (map f l)) (map h).
Proof. intros H l. cbn [tree_floats]. rewrite !map_map. f_equal. apply map_ext, H. Qed.
Lemma keeps_list_ {A} g (f : A -> tree) : keeps_ g f -> keeps_ g (fun l => TList (map f l)).
Proof. intros H l. cbn [tree_floats]. rewrite !map_map. f_equal. apply map_ext, H. Qed.
Lemma moves_option {A} g (f : A -> tree) h : moves g f h -> moves g (of_option f) (option_map h).
Proof. intros H [x|]; [apply H|reflexivity]. Qed.
Lemma keeps_option {A} g (f : A -> tree) : keeps_ g f -> keeps_ g (of_option f).
Proof. intros H [x|]; [apply H|reflexivity]. Qed.
Lemma keeps_int g : keeps_ g TInt. Proof. intros x. reflexivity. Qed.
Lemma keeps_text g : keeps_ g TText. Proof. intros x. reflexivity. Qed.
Lemma moves_float g : moves g TFloat g. Proof. intros x. reflexivity. Qed.
#[export] Hint Resolve keeps_int keeps_text moves_float keeps_list_ moves_list keeps_option moves_option : trees.
#[export] Hint Resolve cmp_int cmp_float cmp_str : trees.
Lemma dict_moves g l m : Forall2 (fun a b => fst a = fst b /\ tree_floats g (snd a) = snd b) l m -> tree_floats g (TDict l) = TDict m.
Proof. intros H. cbn [tree_floats]. f_equal. induction H as [|[j a] [k b] l m [E F] H IH]; [reflexivity|]. cbn [map fst snd] in *. rewrite E, F, IH. reflexivity. Qed.

Lemma SoundItem_cmp : cmp SoundItem_asdict SoundItem_eq.
Proof.
  split; [|discriminate]. intros x y.
  apply dict_step; [apply (proj1 cmp_str)|].
  apply dict_step; [apply (proj1 cmp_int)|].
  apply dict_step; [apply (proj1 cmp_int)|].
  apply dict_step; [apply (proj1 cmp_int)|].
  apply dict_step; [apply (proj1 cmp_int)|].
  reflexivity.
Qed.
Lemma SoundItem_moves g : keeps_ g SoundItem_asdict.
Proof.
  intros x. apply dict_moves.
  constructor; [split; [reflexivity|exact (keeps_text g _)]|].
  constructor; [split; [reflexivity|exact (keeps_int g _)]|].
  constructor; [split; [reflexivity|exact (keeps_int g _)]|].
  constructor; [split; [reflexivity|exact (keeps_int g _)]|].
  constructor; [split; [reflexivity|exact (keeps_int g _)]|].
  constructor.
Qed.
Lemma Sound_cmp : cmp Sound_asdict Sound_eq.
Proof.
  split; [|discriminate]. intros x y.
  apply dict_step; [apply (proj1 cmp_int)|].
  apply dict_step; [apply (proj1 cmp_int)|].
  apply dict_step; [apply (proj1 cmp_int)|].
  apply dict_step; [apply (proj1 cmp_int)|].
  apply dict_step; [apply (proj1 (cmp_list _ _ (proj1 SoundItem_cmp)))|].
  reflexivity.
Qed.
Lemma Sound_moves g : keeps_ g Sound_asdict.
Proof.
  intros x. apply dict_moves.
  constructor; [split; [reflexivity|exact (keeps_int g _)]|].
  constructor; [split; [reflexivity|exact (keeps_int g _)]|].
  constructor; [split; [reflexivity|exact (keeps_int g _)]|].
  constructor; [split; [reflexivity|exact (keeps_int g _)]|].
  constructor; [split; [reflexivity|exact ((fun g => keeps_list_ g _ (SoundItem_moves g)) g _)]|].
  constructor.
Qed.
Lemma PlayerColour_cmp : cmp PlayerColour_asdict PlayerColour_eq.
Proof.
  split; [|discriminate]. intros x y.
  apply dict_step; [apply (proj1 cmp_int)|].
  apply dict_step; [apply (proj1 cmp_int)|].
  apply dict_step; [apply (proj1 cmp_int)|].
  apply dict_step; [apply (proj1 cmp_int)|].
  apply dict_step; [apply (proj1 cmp_int)|].
  apply dict_step; [apply (proj1 cmp_int)|].
  apply dict_step; [apply (proj1 cmp_int)|].
  apply dict_step; [apply (proj1 cmp_int)|].
  apply dict_step; [apply (proj1 cmp_int)|].
  reflexivity.
Qed.
Lemma PlayerColour_moves g : keeps_ g PlayerColour_asdict.
Proof.
  intros x. apply dict_moves.
  constructor; [split; [reflexivity|exact (keeps_int g _)]|].
  constructor; [split; [reflexivity|exact (keeps_int g _)]|].
  constructor; [split; [reflexivity|exact (keeps_int g _)]|].
  constructor; [split; [reflexivity|exact (keeps_int g _)]|].
  constructor; [split; [reflexivity|exact (keeps_int g _)]|].
  constructor; [split; [reflexivity|exact (keeps_int g _)]|].
  constructor; [split; [reflexivity|exact (keeps_int g _)]|].
  constructor; [split; [reflexivity|exact (keeps_int g _)]|].
  constructor; [split; [reflexivity|exact (keeps_int g _)]|].
  constructor.
Qed.
Lemma EffectCommand_cmp : cmp EffectCommand_asdict EffectCommand_eq.
Proof.
  split; [|discriminate]. intros x y.
  apply dict_step; [apply (proj1 cmp_int)|].
  apply dict_step; [apply (proj1 cmp_int)|].
  apply dict_step; [apply (proj1 cmp_int)|].
  apply dict_step; [apply (proj1 cmp_int)|].
  apply dict_step; [apply (proj1 cmp_float)|].
  reflexivity.
Qed.
Lemma EffectCommand_moves g : moves g EffectCommand_asdict (EffectCommand_floats g).
Proof.
  intros x. apply dict_moves.
  constructor; [split; [reflexivity|exact (keeps_int g _)]|].
  constructor; [split; [reflexivity|exact (keeps_int g _)]|].
  constructor; [split; [reflexivity|exact (keeps_int g _)]|].
  constructor; [split; [reflexivity|exact (keeps_int g _)]|].
  constructor; [split; [reflexivity|exact (moves_float g _)]|].
  constructor.
Qed.
Lemma Effect_cmp : cmp Effect_asdict Effect_eq.
Proof.
  split; [|discriminate]. intros x y.
  apply dict_step; [apply (proj1 cmp_str)|].
  apply dict_step; [apply (proj1 (cmp_list _ _ (proj1 EffectCommand_cmp)))|].
  reflexivity.
Qed.
Lemma Effect_moves g : moves g Effect_asdict (Effect_floats g).
Proof.
  intros x. apply dict_moves.
  constructor; [split; [reflexivity|exact (keeps_text g _)]|].
  constructor; [split; [reflexivity|exact ((fun g => moves_list g _ _ (EffectCommand_moves g)) g _)]|].
  constructor.
Qed.
Lemma TerrainPassGraphic_cmp : cmp TerrainPassGraphic_asdict TerrainPassGraphic_eq.
Proof.
  split; [|discriminate]. intros x y.
  apply dict_step; [apply (proj1 cmp_int)|].
  apply dict_step; [apply (proj1 cmp_int)|].
  apply dict_step; [apply (proj1 cmp_int)|].
  apply dict_step; [apply (proj1 cmp_int)|].
  reflexivity.
Qed.
Lemma TerrainPassGraphic_moves g : keeps_ g TerrainPassGraphic_asdict.
Proof.
  intros x. apply dict_moves.
  constructor; [split; [reflexivity|exact (keeps_int g _)]|].
  constructor; [split; [reflexivity|exact (keeps_int g _)]|].
  constructor; [split; [reflexivity|exact (keeps_int g _)]|].
  constructor; [split; [reflexivity|exact (keeps_int g _)]|].
  constructor.
Qed.
Lemma TerrainRestriction_cmp : cmp TerrainRestriction_asdict TerrainRestriction_eq.
Proof.
  split; [|discriminate]. intros x y.
  apply dict_step; [apply (proj1 (cmp_list _ _ (proj1 cmp_float)))|].
  apply dict_step; [apply (proj1 (cmp_list _ _ (proj1 TerrainPassGraphic_cmp)))|].
  reflexivity.
Qed.
Lemma TerrainRestriction_moves g : moves g TerrainRestriction_asdict (TerrainRestriction_floats g).
Proof.
  intros x. apply dict_moves.
  constructor; [split; [reflexivity|exact ((fun g => moves_list g _ _ (moves_float g)) g _)]|].
  constructor; [split; [reflexivity|exact ((fun g => keeps_list_ g _ (TerrainPassGraphic_moves g)) g _)]|].
  constructor.
Qed.
Lemma GraphicDelta_cmp : cmp GraphicDelta_asdict GraphicDelta_eq.
Proof.
  split; [|discriminate]. intros x y.
  apply dict_step; [apply (proj1 cmp_int)|].
  apply dict_step; [apply (proj1 cmp_int)|].
  apply dict_step; [apply (proj1 cmp_int)|].
  apply dict_step; [apply (proj1 cmp_int)|].
  apply dict_step; [apply (proj1 cmp_int)|].
  apply dict_step; [apply (proj1 cmp_int)|].
  apply dict_step; [apply (proj1 cmp_int)|].
  reflexivity.
Qed.
Lemma GraphicDelta_moves g : keeps_ g GraphicDelta_asdict.
Proof.
  intros x. apply dict_moves.
  constructor; [split; [reflexivity|exact (keeps_int g _)]|].
  constructor; [split; [reflexivity|exact (keeps_int g _)]|].
  constructor; [split; [reflexivity|exact (keeps_int g _)]|].
  constructor; [split; [reflexivity|exact (keeps_int g _)]|].
  constructor; [split; [reflexivity|exact (keeps_int g _)]|].
  constructor; [split; [reflexivity|exact (keeps_int g _)]|].
  constructor; [split; [reflexivity|exact (keeps_int g _)]|].
  constructor.
Qed.
Lemma GraphicAngleSound_cmp : cmp GraphicAngleSound_asdict GraphicAngleSound_eq.
Proof.
  split; [|discriminate]. intros x y.
  apply dict_step; [apply (proj1 cmp_int)|].
  apply dict_step; [apply (proj1 cmp_int)|].
  apply dict_step; [apply (proj1 cmp_int)|].
  apply dict_step; [apply (proj1 cmp_int)|].
  apply dict_step; [apply (proj1 cmp_int)|].
  apply dict_step; [apply (proj1 cmp_int)|].
  apply dict_step; [apply (proj1 cmp_int)|].
  apply dict_step; [apply (proj1 cmp_int)|].
  apply dict_step; [apply (proj1 cmp_int)|].
  reflexivity.
Qed.
Lemma GraphicAngleSound_moves g : keeps_ g GraphicAngleSound_asdict.
Proof.
  intros x. apply dict_moves.
  constructor; [split; [reflexivity|exact (keeps_int g _)]|].
  constructor; [split; [reflexivity|exact (keeps_int g _)]|].
  constructor; [split; [reflexivity|exact (keeps_int g _)]|].
  constructor; [split; [reflexivity|exact (keeps_int g _)]|].
  constructor; [split; [reflexivity|exact (keeps_int g _)]|].
  constructor; [split; [reflexivity|exact (keeps_int g _)]|].
  constructor; [split; [reflexivity|exact (keeps_int g _)]|].
  constructor; [split; [reflexivity|exact (keeps_int g _)]|].
  constructor; [split; [reflexivity|exact (keeps_int g _)]|].
  constructor.
Qed.
Lemma Graphic_cmp : cmp Graphic_asdict Graphic_eq.
Proof.
  split; [|discriminate]. intros x y.
  apply dict_step; [apply (proj1 cmp_str)|].
  apply dict_step; [apply (proj1 cmp_str)|].
  apply dict_step; [apply (proj1 cmp_str)|].
  apply dict_step; [apply (proj1 cmp_int)|].
  apply dict_step; [apply (proj1 cmp_int)|].
  apply dict_step; [apply (proj1 cmp_int)|].
  apply dict_step; [apply (proj1 cmp_int)|].
  apply dict_step; [apply (proj1 cmp_int)|].
  apply dict_step; [apply (proj1 cmp_int)|].
  apply dict_step; [apply (proj1 (cmp_list _ _ (proj1 cmp_int)))|].
  apply dict_step; [apply (proj1 cmp_int)|].
  apply dict_step; [apply (proj1 cmp_int)|].
  apply dict_step; [apply (proj1 cmp_int)|].
  apply dict_step; [apply (proj1 cmp_int)|].
  apply dict_step; [apply (proj1 cmp_int)|].
  apply dict_step; [apply (proj1 cmp_float)|].
  apply dict_step; [apply (proj1 cmp_float)|].
  apply dict_step; [apply (proj1 cmp_float)|].
  apply dict_step; [apply (proj1 cmp_int)|].
  apply dict_step; [apply (proj1 cmp_int)|].
  apply dict_step; [apply (proj1 cmp_int)|].
  apply dict_step; [apply (proj1 cmp_int)|].
  apply dict_step; [apply (proj1 (cmp_list _ _ (proj1 GraphicDelta_cmp)))|].
  apply dict_step; [apply (proj1 (cmp_list _ _ (proj1 GraphicAngleSound_cmp)))|].
  reflexivity.
Qed.
Lemma Graphic_moves g : moves g Graphic_asdict (Graphic_floats g).
Proof.
  intros x. apply dict_moves.
  constructor; [split; [reflexivity|exact (keeps_text g _)]|].
  constructor; [split; [reflexivity|exact (keeps_text g _)]|].
  constructor; [split; [reflexivity|exact (keeps_text g _)]|].
  constructor; [split; [reflexivity|exact (keeps_int g _)]|].
  constructor; [split; [reflexivity|exact (keeps_int g _)]|].
  constructor; [split; [reflexivity|exact (keeps_int g _)]|].
  constructor; [split; [reflexivity|exact (keeps_int g _)]|].
  constructor; [split; [reflexivity|exact (keeps_int g _)]|].
  constructor; [split; [reflexivity|exact (keeps_int g _)]|].
  constructor; [split; [reflexivity|exact ((fun g => keeps_list_ g _ (keeps_int g)) g _)]|].
  constructor; [split; [reflexivity|exact (keeps_int g _)]|].
  constructor; [split; [reflexivity|exact (keeps_int g _)]|].
  constructor; [split; [reflexivity|exact (keeps_int g _)]|].
  constructor; [split; [reflexivity|exact (keeps_int g _)]|].
  constructor; [split; [reflexivity|exact (keeps_int g _)]|].
  constructor; [split; [reflexivity|exact (moves_float g _)]|].
  constructor; [split; [reflexivity|exact (moves_float g _)]|].
  constructor; [split; [reflexivity|exact (moves_float g _)]|].
  constructor; [split; [reflexivity|exact (keeps_int g _)]|].
  constructor; [split; [reflexivity|exact (keeps_int g _)]|].
  constructor; [split; [reflexivity|exact (keeps_int g _)]|].
  constructor; [split; [reflexivity|exact (keeps_int g _)]|].
  constructor; [split; [reflexivity|exact ((fun g => keeps_list_ g _ (GraphicDelta_moves g)) g _)]|].
  constructor; [split; [reflexivity|exact ((fun g => keeps_list_ g _ (GraphicAngleSound_moves g)) g _)]|].
  constructor.
Qed.
Lemma FrameData_cmp : cmp FrameData_asdict FrameData_eq.
Proof.
  split; [|discriminate]. intros x y.
  apply dict_step; [apply (proj1 cmp_int)|].
  apply dict_step; [apply (proj1 cmp_int)|].
  apply dict_step; [apply (proj1 cmp_int)|].
  reflexivity.
Qed.
Lemma FrameData_moves g : keeps_ g FrameData_asdict.
Proof.
  intros x. apply dict_moves.
  constructor; [split; [reflexivity|exact (keeps_int g _)]|].
  constructor; [split; [reflexivity|exact (keeps_int g _)]|].
  constructor; [split; [reflexivity|exact (keeps_int g _)]|].
  constructor.
Qed.
Lemma Terrain_cmp : cmp Terrain_asdict Terrain_eq.
Proof.
  split; [|discriminate]. intros x y.
  apply dict_step; [apply (proj1 cmp_int)|].
  apply dict_step; [apply (proj1 cmp_int)|].
  apply dict_step; [apply (proj1 cmp_int)|].
  apply dict_step; [apply (proj1 cmp_int)|].
  apply dict_step; [apply (proj1 cmp_int)|].
  apply dict_step; [apply (proj1 cmp_str)|].
  apply dict_step; [apply (proj1 cmp_str)|].
  apply dict_step; [apply (proj1 cmp_int)|].
  apply dict_step; [apply (proj1 cmp_int)|].
  apply dict_step; [apply (proj1 cmp_int)|].
  apply dict_step; [apply (proj1 cmp_int)|].
  apply dict_step; [apply (proj1 cmp_int)|].
  apply dict_step; [apply (proj1 cmp_int)|].
  apply dict_step; [apply (proj1 cmp_int)|].
  apply dict_step; [apply (proj1 cmp_str)|].
  apply dict_step; [apply (proj1 (cmp_list _ _ (proj1 cmp_int)))|].
  apply dict_step; [apply (proj1 (cmp_list _ _ (proj1 cmp_int)))|].
  apply dict_step; [apply (proj1 cmp_int)|].
  apply dict_step; [apply (proj1 cmp_int)|].
  apply dict_step; [apply (proj1 cmp_int)|].
  apply dict_step; [apply (proj1 cmp_int)|].
  apply dict_step; [apply (proj1 cmp_int)|].
  apply dict_step; [apply (proj1 cmp_float)|].
  apply dict_step; [apply (proj1 cmp_float)|].
  apply dict_step; [apply (proj1 cmp_int)|].
  apply dict_step; [apply (proj1 cmp_int)|].
  apply dict_step; [apply (proj1 cmp_float)|].
  apply dict_step; [apply (proj1 cmp_int)|].
  apply dict_step; [apply (proj1 cmp_int)|].
  apply dict_step; [apply (proj1 (cmp_list _ _ (proj1 FrameData_cmp)))|].
  apply dict_step; [apply (proj1 cmp_int)|].
  apply dict_step; [apply (proj1 (cmp_list _ _ (proj1 cmp_int)))|].
  apply dict_step; [apply (proj1 (cmp_list _ _ (proj1 cmp_int)))|].
  apply dict_step; [apply (proj1 (cmp_list _ _ (proj1 cmp_int)))|].
  apply dict_step; [apply (proj1 (cmp_list _ _ (proj1 cmp_int)))|].
  apply dict_step; [apply (proj1 (cmp_list _ _ (proj1 cmp_int)))|].
  apply dict_step; [apply (proj1 cmp_int)|].
  apply dict_step; [apply (proj1 cmp_int)|].
  reflexivity.
Qed.
Lemma Terrain_moves g : moves g Terrain_asdict (Terrain_floats g).
Proof.
  intros x. apply dict_moves.
  constructor; [split; [reflexivity|exact (keeps_int g _)]|].
  constructor; [split; [reflexivity|exact (keeps_int g _)]|].
  constructor; [split; [reflexivity|exact (keeps_int g _)]|].
  constructor; [split; [reflexivity|exact (keeps_int g _)]|].
  constructor; [split; [reflexivity|exact (keeps_int g _)]|].
  constructor; [split; [reflexivity|exact (keeps_text g _)]|].
  constructor; [split; [reflexivity|exact (keeps_text g _)]|].
  constructor; [split; [reflexivity|exact (keeps_int g _)]|].
  constructor; [split; [reflexivity|exact (keeps_int g _)]|].
  constructor; [split; [reflexivity|exact (keeps_int g _)]|].
  constructor; [split; [reflexivity|exact (keeps_int g _)]|].
  constructor; [split; [reflexivity|exact (keeps_int g _)]|].
  constructor; [split; [reflexivity|exact (keeps_int g _)]|].
  constructor; [split; [reflexivity|exact (keeps_int g _)]|].
  constructor; [split; [reflexivity|exact (keeps_text g _)]|].
  constructor; [split; [reflexivity|exact ((fun g => keeps_list_ g _ (keeps_int g)) g _)]|].
  constructor; [split; [reflexivity|exact ((fun g => keeps_list_ g _ (keeps_int g)) g _)]|].
  constructor; [split; [reflexivity|exact (keeps_int g _)]|].
  constructor; [split; [reflexivity|exact (keeps_int g _)]|].
  constructor; [split; [reflexivity|exact (keeps_int g _)]|].
  constructor; [split; [reflexivity|exact (keeps_int g _)]|].
  constructor; [split; [reflexivity|exact (keeps_int g _)]|].
  constructor; [split; [reflexivity|exact (moves_float g _)]|].
  constructor; [split; [reflexivity|exact (moves_float g _)]|].
  constructor; [split; [reflexivity|exact (keeps_int g _)]|].
  constructor; [split; [reflexivity|exact (keeps_int g _)]|].
  constructor; [split; [reflexivity|exact (moves_float g _)]|].
  constructor; [split; [reflexivity|exact (keeps_int g _)]|].
  constructor; [split; [reflexivity|exact (keeps_int g _)]|].
  constructor; [split; [reflexivity|exact ((fun g => keeps_list_ g _ (FrameData_moves g)) g _)]|].
  constructor; [split; [reflexivity|exact (keeps_int g _)]|].
  constructor; [split; [reflexivity|exact ((fun g => keeps_list_ g _ (keeps_int g)) g _)]|].
  constructor; [split; [reflexivity|exact ((fun g => keeps_list_ g _ (keeps_int g)) g _)]|].
  constructor; [split; [reflexivity|exact ((fun g => keeps_list_ g _ (keeps_int g)) g _)]|].
  constructor; [split; [reflexivity|exact ((fun g => keeps_list_ g _ (keeps_int g)) g _)]|].
  constructor; [split; [reflexivity|exact ((fun g => keeps_list_ g _ (keeps_int g)) g _)]|].
  constructor; [split; [reflexivity|exact (keeps_int g _)]|].
  constructor; [split; [reflexivity|exact (keeps_int g _)]|].
  constructor.
Qed.
Lemma TileSize_cmp : cmp TileSize_asdict TileSize_eq.
Proof.
  split; [|discriminate]. intros x y.
  apply dict_step; [apply (proj1 cmp_int)|].
  apply dict_step; [apply (proj1 cmp_int)|].
  apply dict_step; [apply (proj1 cmp_int)|].
  reflexivity.
Qed.
Lemma TileSize_moves g : keeps_ g TileSize_asdict.
Proof.
  intros x. apply dict_moves.
  constructor; [split; [reflexivity|exact (keeps_int g _)]|].
  constructor; [split; [reflexivity|exact (keeps_int g _)]|].
  constructor; [split; [reflexivity|exact (keeps_int g _)]|].
  constructor.
Qed.
Lemma TerrainBlock_cmp : cmp TerrainBlock_asdict TerrainBlock_eq.
Proof.
  split; [|discriminate]. intros x y.
  apply dict_step; [apply (proj1 cmp_int)|].
  apply dict_step; [apply (proj1 cmp_int)|].
  apply dict_step; [apply (proj1 cmp_int)|].
  apply dict_step; [apply (proj1 cmp_int)|].
  apply dict_step; [apply (proj1 cmp_int)|].
  apply dict_step; [apply (proj1 cmp_int)|].
  apply dict_step; [apply (proj1 (cmp_list _ _ (proj1 TileSize_cmp)))|].
  apply dict_step; [apply (proj1 cmp_int)|].
  apply dict_step; [apply (proj1 (cmp_list _ _ (proj1 Terrain_cmp)))|].
  apply dict_step; [apply (proj1 cmp_float)|].
  apply dict_step; [apply (proj1 cmp_float)|].
  apply dict_step; [apply (proj1 cmp_float)|].
  apply dict_step; [apply (proj1 cmp_float)|].
  apply dict_step; [apply (proj1 cmp_float)|].
  apply dict_step; [apply (proj1 cmp_float)|].
  apply dict_step; [apply (proj1 cmp_int)|].
  apply dict_step; [apply (proj1 cmp_int)|].
  apply dict_step; [apply (proj1 cmp_int)|].
  apply dict_step; [apply (proj1 cmp_int)|].
  apply dict_step; [apply (proj1 cmp_int)|].
  apply dict_step; [apply (proj1 cmp_int)|].
  apply dict_step; [apply (proj1 cmp_int)|].
  apply dict_step; [apply (proj1 cmp_int)|].
  apply dict_step; [apply (proj1 cmp_int)|].
  apply dict_step; [apply (proj1 cmp_int)|].
  apply dict_step; [apply (proj1 cmp_int)|].
  apply dict_step; [apply (proj1 cmp_int)|].
  apply dict_step; [apply (proj1 cmp_int)|].
  apply dict_step; [apply (proj1 cmp_int)|].
  apply dict_step; [apply (proj1 cmp_int)|].
  apply dict_step; [apply (proj1 cmp_int)|].
  apply dict_step; [apply (proj1 cmp_int)|].
  apply dict_step; [apply (proj1 cmp_int)|].
  apply dict_step; [apply (proj1 cmp_int)|].
  reflexivity.
Qed.
Lemma TerrainBlock_moves g : moves g TerrainBlock_asdict (TerrainBlock_floats g).
Proof.
  intros x. apply dict_moves.
  constructor; [split; [reflexivity|exact (keeps_int g _)]|].
  constructor; [split; [reflexivity|exact (keeps_int g _)]|].
  constructor; [split; [reflexivity|exact (keeps_int g _)]|].
  constructor; [split; [reflexivity|exact (keeps_int g _)]|].
  constructor; [split; [reflexivity|exact (keeps_int g _)]|].
  constructor; [split; [reflexivity|exact (keeps_int g _)]|].
  constructor; [split; [reflexivity|exact ((fun g => keeps_list_ g _ (TileSize_moves g)) g _)]|].
  constructor; [split; [reflexivity|exact (keeps_int g _)]|].
  constructor; [split; [reflexivity|exact ((fun g => moves_list g _ _ (Terrain_moves g)) g _)]|].
  constructor; [split; [reflexivity|exact (moves_float g _)]|].
  constructor; [split; [reflexivity|exact (moves_float g _)]|].
  constructor; [split; [reflexivity|exact (moves_float g _)]|].
  constructor; [split; [reflexivity|exact (moves_float g _)]|].
  constructor; [split; [reflexivity|exact (moves_float g _)]|].
  constructor; [split; [reflexivity|exact (moves_float g _)]|].
  constructor; [split; [reflexivity|exact (keeps_int g _)]|].
  constructor; [split; [reflexivity|exact (keeps_int g _)]|].
  constructor; [split; [reflexivity|exact (keeps_int g _)]|].
  constructor; [split; [reflexivity|exact (keeps_int g _)]|].
  constructor; [split; [reflexivity|exact (keeps_int g _)]|].
  constructor; [split; [reflexivity|exact (keeps_int g _)]|].
  constructor; [split; [reflexivity|exact (keeps_int g _)]|].
  constructor; [split; [reflexivity|exact (keeps_int g _)]|].
  constructor; [split; [reflexivity|exact (keeps_int g _)]|].
  constructor; [split; [reflexivity|exact (keeps_int g _)]|].
  constructor; [split; [reflexivity|exact (keeps_int g _)]|].
  constructor; [split; [reflexivity|exact (keeps_int g _)]|].
  constructor; [split; [reflexivity|exact (keeps_int g _)]|].
  constructor; [split; [reflexivity|exact (keeps_int g _)]|].
  constructor; [split; [reflexivity|exact (keeps_int g _)]|].
  constructor; [split; [reflexivity|exact (keeps_int g _)]|].
  constructor; [split; [reflexivity|exact (keeps_int g _)]|].
  constructor; [split; [reflexivity|exact (keeps_int g _)]|].
  constructor; [split; [reflexivity|exact (keeps_int g _)]|].
  constructor.
Qed.
Lemma MapUnit_cmp : cmp MapUnit_asdict MapUnit_eq.
Proof.
  split; [|discriminate]. intros x y.
  apply dict_step; [apply (proj1 cmp_int)|].
  apply dict_step; [apply (proj1 cmp_int)|].
  apply dict_step; [apply (proj1 cmp_int)|].
  apply dict_step; [apply (proj1 cmp_int)|].
  apply dict_step; [apply (proj1 cmp_int)|].
  apply dict_step; [apply (proj1 cmp_int)|].
  apply dict_step; [apply (proj1 cmp_int)|].
  apply dict_step; [apply (proj1 cmp_int)|].
  apply dict_step; [apply (proj1 cmp_int)|].
  apply dict_step; [apply (proj1 cmp_int)|].
  apply dict_step; [apply (proj1 cmp_int)|].
  apply dict_step; [apply (proj1 cmp_int)|].
  apply dict_step; [apply (proj1 cmp_int)|].
  reflexivity.
Qed.
Lemma MapUnit_moves g : keeps_ g MapUnit_asdict.
Proof.
  intros x. apply dict_moves.
  constructor; [split; [reflexivity|exact (keeps_int g _)]|].
  constructor; [split; [reflexivity|exact (keeps_int g _)]|].
  constructor; [split; [reflexivity|exact (keeps_int g _)]|].
  constructor; [split; [reflexivity|exact (keeps_int g _)]|].
  constructor; [split; [reflexivity|exact (keeps_int g _)]|].
  constructor; [split; [reflexivity|exact (keeps_int g _)]|].
  constructor; [split; [reflexivity|exact (keeps_int g _)]|].
  constructor; [split; [reflexivity|exact (keeps_int g _)]|].
  constructor; [split; [reflexivity|exact (keeps_int g _)]|].
  constructor; [split; [reflexivity|exact (keeps_int g _)]|].
  constructor; [split; [reflexivity|exact (keeps_int g _)]|].
  constructor; [split; [reflexivity|exact (keeps_int g _)]|].
  constructor; [split; [reflexivity|exact (keeps_int g _)]|].
  constructor.
Qed.
Lemma MapTerrain_cmp : cmp MapTerrain_asdict MapTerrain_eq.
Proof.
  split; [|discriminate]. intros x y.
  apply dict_step; [apply (proj1 cmp_int)|].
  apply dict_step; [apply (proj1 cmp_int)|].
  apply dict_step; [apply (proj1 cmp_int)|].
  apply dict_step; [apply (proj1 cmp_int)|].
  apply dict_step; [apply (proj1 cmp_int)|].
  apply dict_step; [apply (proj1 cmp_int)|].
  reflexivity.
Qed.
Lemma MapTerrain_moves g : keeps_ g MapTerrain_asdict.
Proof.
  intros x. apply dict_moves.
  constructor; [split; [reflexivity|exact (keeps_int g _)]|].
  constructor; [split; [reflexivity|exact (keeps_int g _)]|].
  constructor; [split; [reflexivity|exact (keeps_int g _)]|].
  constructor; [split; [reflexivity|exact (keeps_int g _)]|].
  constructor; [split; [reflexivity|exact (keeps_int g _)]|].
  constructor; [split; [reflexivity|exact (keeps_int g _)]|].
  constructor.
Qed.
Lemma MapLand_cmp : cmp MapLand_asdict MapLand_eq.
Proof.
  split; [|discriminate]. intros x y.
  apply dict_step; [apply (proj1 cmp_int)|].
  apply dict_step; [apply (proj1 cmp_int)|].
  apply dict_step; [apply (proj1 cmp_int)|].
  apply dict_step; [apply (proj1 cmp_int)|].
  apply dict_step; [apply (proj1 cmp_int)|].
  apply dict_step; [apply (proj1 cmp_int)|].
  apply dict_step; [apply (proj1 cmp_int)|].
  apply dict_step; [apply (proj1 cmp_int)|].
  apply dict_step; [apply (proj1 cmp_int)|].
  apply dict_step; [apply (proj1 cmp_int)|].
  apply dict_step; [apply (proj1 cmp_int)|].
  apply dict_step; [apply (proj1 cmp_int)|].
  apply dict_step; [apply (proj1 cmp_int)|].
  apply dict_step; [apply (proj1 cmp_int)|].
  apply dict_step; [apply (proj1 cmp_int)|].
  reflexivity.
Qed.
Lemma MapLand_moves g : keeps_ g MapLand_asdict.
Proof.
  intros x. apply dict_moves.
  constructor; [split; [reflexivity|exact (keeps_int g _)]|].
  constructor; [split; [reflexivity|exact (keeps_int g _)]|].
  constructor; [split; [reflexivity|exact (keeps_int g _)]|].
  constructor; [split; [reflexivity|exact (keeps_int g _)]|].
  constructor; [split; [reflexivity|exact (keeps_int g _)]|].
  constructor; [split; [reflexivity|exact (keeps_int g _)]|].
  constructor; [split; [reflexivity|exact (keeps_int g _)]|].
  constructor; [split; [reflexivity|exact (keeps_int g _)]|].
  constructor; [split; [reflexivity|exact (keeps_int g _)]|].
  constructor; [split; [reflexivity|exact (keeps_int g _)]|].
  constructor; [split; [reflexivity|exact (keeps_int g _)]|].
  constructor; [split; [reflexivity|exact (keeps_int g _)]|].
  constructor; [split; [reflexivity|exact (keeps_int g _)]|].
  constructor; [split; [reflexivity|exact (keeps_int g _)]|].
  constructor; [split; [reflexivity|exact (keeps_int g _)]|].
  constructor.
Qed.
Lemma MapElevation_cmp : cmp MapElevation_asdict MapElevation_eq.
Proof.
  split; [|discriminate]. intros x y.
  apply dict_step; [apply (proj1 cmp_int)|].
  apply dict_step; [apply (proj1 cmp_int)|].
  apply dict_step; [apply (proj1 cmp_int)|].
  apply dict_step; [apply (proj1 cmp_int)|].
  apply dict_step; [apply (proj1 cmp_int)|].
  apply dict_step; [apply (proj1 cmp_int)|].
  reflexivity.
Qed.
Lemma MapElevation_moves g : keeps_ g MapElevation_asdict.
Proof.
  intros x. apply dict_moves.
  constructor; [split; [reflexivity|exact (keeps_int g _)]|].
  constructor; [split; [reflexivity|exact (keeps_int g _)]|].
  constructor; [split; [reflexivity|exact (keeps_int g _)]|].
  constructor; [split; [reflexivity|exact (keeps_int g _)]|].
  constructor; [split; [reflexivity|exact (keeps_int g _)]|].
  constructor; [split; [reflexivity|exact (keeps_int g _)]|].
  constructor.
Qed.
Lemma MapInfo_cmp : cmp MapInfo_asdict MapInfo_eq.
Proof.
  split; [|discriminate]. intros x y.
  apply dict_step; [apply (proj1 cmp_int)|].
  apply dict_step; [apply (proj1 cmp_int)|].
  apply dict_step; [apply (proj1 cmp_int)|].
  apply dict_step; [apply (proj1 cmp_int)|].
  apply dict_step; [apply (proj1 cmp_int)|].
  apply dict_step; [apply (proj1 cmp_int)|].
  apply dict_step; [apply (proj1 cmp_int)|].
  apply dict_step; [apply (proj1 cmp_int)|].
  apply dict_step; [apply (proj1 cmp_int)|].
  apply dict_step; [apply (proj1 cmp_int)|].
  apply dict_step; [apply (proj1 cmp_int)|].
  apply dict_step; [apply (proj1 cmp_int)|].
  apply dict_step; [apply (proj1 (cmp_list _ _ (proj1 MapLand_cmp)))|].
  apply dict_step; [apply (proj1 cmp_int)|].
  apply dict_step; [apply (proj1 cmp_int)|].
  apply dict_step; [apply (proj1 (cmp_list _ _ (proj1 MapTerrain_cmp)))|].
  apply dict_step; [apply (proj1 cmp_int)|].
  apply dict_step; [apply (proj1 cmp_int)|].
  apply dict_step; [apply (proj1 (cmp_list _ _ (proj1 MapUnit_cmp)))|].
  apply dict_step; [apply (proj1 cmp_int)|].
  apply dict_step; [apply (proj1 cmp_int)|].
  apply dict_step; [apply (proj1 (cmp_list _ _ (proj1 MapElevation_cmp)))|].
  reflexivity.
Qed.
Lemma MapInfo_moves g : keeps_ g MapInfo_asdict.
Proof.
  intros x. apply dict_moves.
  constructor; [split; [reflexivity|exact (keeps_int g _)]|].
  constructor; [split; [reflexivity|exact (keeps_int g _)]|].
  constructor; [split; [reflexivity|exact (keeps_int g _)]|].
  constructor; [split; [reflexivity|exact (keeps_int g _)]|].
  constructor; [split; [reflexivity|exact (keeps_int g _)]|].
  constructor; [split; [reflexivity|exact (keeps_int g _)]|].
  constructor; [split; [reflexivity|exact (keeps_int g _)]|].
  constructor; [split; [reflexivity|exact (keeps_int g _)]|].
  constructor; [split; [reflexivity|exact (keeps_int g _)]|].
  constructor; [split; [reflexivity|exact (keeps_int g _)]|].
  constructor; [split; [reflexivity|exact (keeps_int g _)]|].
  constructor; [split; [reflexivity|exact (keeps_int g _)]|].
  constructor; [split; [reflexivity|exact ((fun g => keeps_list_ g _ (MapLand_moves g)) g _)]|].
  constructor; [split; [reflexivity|exact (keeps_int g _)]|].
  constructor; [split; [reflexivity|exact (keeps_int g _)]|].
  constructor; [split; [reflexivity|exact ((fun g => keeps_list_ g _ (MapTerrain_moves g)) g _)]|].
  constructor; [split; [reflexivity|exact (keeps_int g _)]|].
  constructor; [split; [reflexivity|exact (keeps_int g _)]|].
  constructor; [split; [reflexivity|exact ((fun g => keeps_list_ g _ (MapUnit_moves g)) g _)]|].
  constructor; [split; [reflexivity|exact (keeps_int g _)]|].
  constructor; [split; [reflexivity|exact (keeps_int g _)]|].
  constructor; [split; [reflexivity|exact ((fun g => keeps_list_ g _ (MapElevation_moves g)) g _)]|].
  constructor.
Qed.
Lemma RandomMaps_cmp : cmp RandomMaps_asdict RandomMaps_eq.
Proof.
  split; [|discriminate]. intros x y.
  apply dict_step; [apply (proj1 cmp_int)|].
  apply dict_step; [apply (proj1 (cmp_list _ _ (proj1 MapInfo_cmp)))|].
  apply dict_step; [apply (proj1 (cmp_list _ _ (proj1 MapInfo_cmp)))|].
  reflexivity.
Qed.
Lemma RandomMaps_moves g : keeps_ g RandomMaps_asdict.
Proof.
  intros x. apply dict_moves.
  constructor; [split; [reflexivity|exact (keeps_int g _)]|].
  constructor; [split; [reflexivity|exact ((fun g => keeps_list_ g _ (MapInfo_moves g)) g _)]|].
  constructor; [split; [reflexivity|exact ((fun g => keeps_list_ g _ (MapInfo_moves g)) g _)]|].
  constructor.
Qed.
Lemma Task_cmp : cmp Task_asdict Task_eq.
Proof.
  split; [|discriminate]. intros x y.
  apply dict_step; [apply (proj1 cmp_int)|].
  apply dict_step; [apply (proj1 cmp_int)|].
  apply dict_step; [apply (proj1 cmp_int)|].
  apply dict_step; [apply (proj1 cmp_int)|].
  apply dict_step; [apply (proj1 cmp_int)|].
  apply dict_step; [apply (proj1 cmp_int)|].
  apply dict_step; [apply (proj1 cmp_int)|].
  apply dict_step; [apply (proj1 cmp_int)|].
  apply dict_step; [apply (proj1 cmp_int)|].
  apply dict_step; [apply (proj1 cmp_int)|].
  apply dict_step; [apply (proj1 cmp_int)|].
  apply dict_step; [apply (proj1 cmp_float)|].
  apply dict_step; [apply (proj1 cmp_float)|].
  apply dict_step; [apply (proj1 cmp_float)|].
  apply dict_step; [apply (proj1 cmp_int)|].
  apply dict_step; [apply (proj1 cmp_float)|].
  apply dict_step; [apply (proj1 cmp_int)|].
  apply dict_step; [apply (proj1 cmp_int)|].
  apply dict_step; [apply (proj1 cmp_int)|].
  apply dict_step; [apply (proj1 cmp_int)|].
  apply dict_step; [apply (proj1 cmp_int)|].
  apply dict_step; [apply (proj1 cmp_int)|].
  apply dict_step; [apply (proj1 cmp_int)|].
  apply dict_step; [apply (proj1 cmp_int)|].
  apply dict_step; [apply (proj1 cmp_int)|].
  apply dict_step; [apply (proj1 cmp_int)|].
  apply dict_step; [apply (proj1 cmp_int)|].
  apply dict_step; [apply (proj1 cmp_int)|].
  apply dict_step; [apply (proj1 cmp_int)|].
  apply dict_step; [apply (proj1 cmp_int)|].
  apply dict_step; [apply (proj1 cmp_int)|].
  apply dict_step; [apply (proj1 cmp_int)|].
  reflexivity.
Qed.
Lemma Task_moves g : moves g Task_asdict (Task_floats g).
Proof.
  intros x. apply dict_moves.
  constructor; [split; [reflexivity|exact (keeps_int g _)]|].
  constructor; [split; [reflexivity|exact (keeps_int g _)]|].
  constructor; [split; [reflexivity|exact (keeps_int g _)]|].
  constructor; [split; [reflexivity|exact (keeps_int g _)]|].
  constructor; [split; [reflexivity|exact (keeps_int g _)]|].
  constructor; [split; [reflexivity|exact (keeps_int g _)]|].
  constructor; [split; [reflexivity|exact (keeps_int g _)]|].
  constructor; [split; [reflexivity|exact (keeps_int g _)]|].
  constructor; [split; [reflexivity|exact (keeps_int g _)]|].
  constructor; [split; [reflexivity|exact (keeps_int g _)]|].
  constructor; [split; [reflexivity|exact (keeps_int g _)]|].
  constructor; [split; [reflexivity|exact (moves_float g _)]|].
  constructor; [split; [reflexivity|exact (moves_float g _)]|].
  constructor; [split; [reflexivity|exact (moves_float g _)]|].
  constructor; [split; [reflexivity|exact (keeps_int g _)]|].
  constructor; [split; [reflexivity|exact (moves_float g _)]|].
  constructor; [split; [reflexivity|exact (keeps_int g _)]|].
  constructor; [split; [reflexivity|exact (keeps_int g _)]|].
  constructor; [split; [reflexivity|exact (keeps_int g _)]|].
  constructor; [split; [reflexivity|exact (keeps_int g _)]|].
  constructor; [split; [reflexivity|exact (keeps_int g _)]|].
  constructor; [split; [reflexivity|exact (keeps_int g _)]|].
  constructor; [split; [reflexivity|exact (keeps_int g _)]|].
  constructor; [split; [reflexivity|exact (keeps_int g _)]|].
  constructor; [split; [reflexivity|exact (keeps_int g _)]|].
  constructor; [split; [reflexivity|exact (keeps_int g _)]|].
  constructor; [split; [reflexivity|exact (keeps_int g _)]|].
  constructor; [split; [reflexivity|exact (keeps_int g _)]|].
  constructor; [split; [reflexivity|exact (keeps_int g _)]|].
  constructor; [split; [reflexivity|exact (keeps_int g _)]|].
  constructor; [split; [reflexivity|exact (keeps_int g _)]|].
  constructor; [split; [reflexivity|exact (keeps_int g _)]|].
  constructor.
Qed.
Lemma UnitHeaders_cmp : cmp UnitHeaders_asdict UnitHeaders_eq.
Proof.
  split; [|discriminate]. intros x y.
  apply dict_step; [apply (proj1 cmp_int)|].
  apply dict_step; [apply (cmp_option _ _ (cmp_list _ _ (proj1 Task_cmp)))|].
  reflexivity.
Qed.
Lemma UnitHeaders_moves g : moves g UnitHeaders_asdict (UnitHeaders_floats g).
Proof.
  intros x. apply dict_moves.
  constructor; [split; [reflexivity|exact (keeps_int g _)]|].
  constructor; [split; [reflexivity|exact ((fun g => moves_option g _ _ ((fun g => moves_list g _ _ (Task_moves g)) g)) g _)]|].
  constructor.
Qed.
Lemma ResourceStorage_cmp : cmp ResourceStorage_asdict ResourceStorage_eq.
Proof.
  split; [|discriminate]. intros x y.
  apply dict_step; [apply (proj1 cmp_int)|].
  apply dict_step; [apply (proj1 cmp_float)|].
  apply dict_step; [apply (proj1 cmp_int)|].
  reflexivity.
Qed.
Lemma ResourceStorage_moves g : moves g ResourceStorage_asdict (ResourceStorage_floats g).
Proof.
  intros x. apply dict_moves.
  constructor; [split; [reflexivity|exact (keeps_int g _)]|].
  constructor; [split; [reflexivity|exact (moves_float g _)]|].
  constructor; [split; [reflexivity|exact (keeps_int g _)]|].
  constructor.
Qed.
Lemma DamageGraphic_cmp : cmp DamageGraphic_asdict DamageGraphic_eq.
Proof.
  split; [|discriminate]. intros x y.
  apply dict_step; [apply (proj1 cmp_int)|].
  apply dict_step; [apply (proj1 cmp_int)|].
  apply dict_step; [apply (proj1 cmp_int)|].
  reflexivity.
Qed.
Lemma DamageGraphic_moves g : keeps_ g DamageGraphic_asdict.
Proof.
  intros x. apply dict_moves.
  constructor; [split; [reflexivity|exact (keeps_int g _)]|].
  constructor; [split; [reflexivity|exact (keeps_int g _)]|].
  constructor; [split; [reflexivity|exact (keeps_int g _)]|].
  constructor.
Qed.
Lemma DeadFish_cmp : cmp DeadFish_asdict DeadFish_eq.
Proof.
  split; [|discriminate]. intros x y.
  apply dict_step; [apply (proj1 cmp_int)|].
  apply dict_step; [apply (proj1 cmp_int)|].
  apply dict_step; [apply (proj1 cmp_float)|].
  apply dict_step; [apply (proj1 cmp_int)|].
  apply dict_step; [apply (proj1 cmp_int)|].
  apply dict_step; [apply (proj1 cmp_int)|].
  apply dict_step; [apply (proj1 cmp_float)|].
  apply dict_step; [apply (proj1 cmp_int)|].
  apply dict_step; [apply (proj1 cmp_float)|].
  apply dict_step; [apply (proj1 cmp_float)|].
  apply dict_step; [apply (proj1 cmp_float)|].
  apply dict_step; [apply (proj1 cmp_float)|].
  apply dict_step; [apply (proj1 cmp_float)|].
  apply dict_step; [apply (proj1 cmp_float)|].
  reflexivity.
Qed.
Lemma DeadFish_moves g : moves g DeadFish_asdict (DeadFish_floats g).
Proof.
  intros x. apply dict_moves.
  constructor; [split; [reflexivity|exact (keeps_int g _)]|].
  constructor; [split; [reflexivity|exact (keeps_int g _)]|].
  constructor; [split; [reflexivity|exact (moves_float g _)]|].
  constructor; [split; [reflexivity|exact (keeps_int g _)]|].
  constructor; [split; [reflexivity|exact (keeps_int g _)]|].
  constructor; [split; [reflexivity|exact (keeps_int g _)]|].
  constructor; [split; [reflexivity|exact (moves_float g _)]|].
  constructor; [split; [reflexivity|exact (keeps_int g _)]|].
  constructor; [split; [reflexivity|exact (moves_float g _)]|].
  constructor; [split; [reflexivity|exact (moves_float g _)]|].
  constructor; [split; [reflexivity|exact (moves_float g _)]|].
  constructor; [split; [reflexivity|exact (moves_float g _)]|].
  constructor; [split; [reflexivity|exact (moves_float g _)]|].
  constructor; [split; [reflexivity|exact (moves_float g _)]|].
  constructor.
Qed.
Lemma Bird_cmp : cmp Bird_asdict Bird_eq.
Proof.
  split; [|discriminate]. intros x y.
  apply dict_step; [apply (proj1 cmp_int)|].
  apply dict_step; [apply (proj1 cmp_float)|].
  apply dict_step; [apply (proj1 cmp_float)|].
  apply dict_step; [apply (proj1 (cmp_list _ _ (proj1 cmp_int)))|].
  apply dict_step; [apply (proj1 cmp_int)|].
  apply dict_step; [apply (proj1 cmp_int)|].
  apply dict_step; [apply (proj1 cmp_int)|].
  apply dict_step; [apply (proj1 cmp_int)|].
  apply dict_step; [apply (proj1 cmp_int)|].
  apply dict_step; [apply (proj1 cmp_int)|].
  apply dict_step; [apply (proj1 (cmp_list _ _ (proj1 Task_cmp)))|].
  reflexivity.
Qed.
Lemma Bird_moves g : moves g Bird_asdict (Bird_floats g).
Proof.
  intros x. apply dict_moves.
  constructor; [split; [reflexivity|exact (keeps_int g _)]|].
  constructor; [split; [reflexivity|exact (moves_float g _)]|].
  constructor; [split; [reflexivity|exact (moves_float g _)]|].
  constructor; [split; [reflexivity|exact ((fun g => keeps_list_ g _ (keeps_int g)) g _)]|].
  constructor; [split; [reflexivity|exact (keeps_int g _)]|].
  constructor; [split; [reflexivity|exact (keeps_int g _)]|].
  constructor; [split; [reflexivity|exact (keeps_int g _)]|].
  constructor; [split; [reflexivity|exact (keeps_int g _)]|].
  constructor; [split; [reflexivity|exact (keeps_int g _)]|].
  constructor; [split; [reflexivity|exact (keeps_int g _)]|].
  constructor; [split; [reflexivity|exact ((fun g => moves_list g _ _ (Task_moves g)) g _)]|].
  constructor.
Qed.
Lemma AttackOrArmor_cmp : cmp AttackOrArmor_asdict AttackOrArmor_eq.
Proof.
  split; [|discriminate]. intros x y.
  apply dict_step; [apply (proj1 cmp_int)|].
  apply dict_step; [apply (proj1 cmp_int)|].
  reflexivity.
Qed.
Lemma AttackOrArmor_moves g : keeps_ g AttackOrArmor_asdict.
Proof.
  intros x. apply dict_moves.
  constructor; [split; [reflexivity|exact (keeps_int g _)]|].
  constructor; [split; [reflexivity|exact (keeps_int g _)]|].
  constructor.
Qed.
Lemma Type50_cmp : cmp Type50_asdict Type50_eq.
Proof.
  split; [|discriminate]. intros x y.
  apply dict_step; [apply (proj1 cmp_int)|].
  apply dict_step; [apply (proj1 (cmp_list _ _ (proj1 AttackOrArmor_cmp)))|].
  apply dict_step; [apply (proj1 (cmp_list _ _ (proj1 AttackOrArmor_cmp)))|].
  apply dict_step; [apply (proj1 cmp_int)|].
  apply dict_step; [apply (proj1 cmp_float)|].
  apply dict_step; [apply (proj1 cmp_float)|].
  apply dict_step; [apply (proj1 cmp_float)|].
  apply dict_step; [apply (proj1 cmp_float)|].
  apply dict_step; [apply (proj1 cmp_int)|].
  apply dict_step; [apply (proj1 cmp_int)|].
  apply dict_step; [apply (proj1 cmp_int)|].
  apply dict_step; [apply (proj1 cmp_int)|].
  apply dict_step; [apply (proj1 (cmp_list _ _ (proj1 cmp_float)))|].
  apply dict_step; [apply (proj1 cmp_int)|].
  apply dict_step; [apply (proj1 cmp_float)|].
  apply dict_step; [apply (proj1 cmp_float)|].
  apply dict_step; [apply (proj1 cmp_int)|].
  apply dict_step; [apply (proj1 cmp_int)|].
  apply dict_step; [apply (proj1 cmp_int)|].
  apply dict_step; [apply (proj1 cmp_float)|].
  apply dict_step; [apply (proj1 cmp_float)|].
  apply dict_step; [apply (proj1 cmp_float)|].
  apply dict_step; [apply (proj1 cmp_float)|].
  apply dict_step; [apply (proj1 cmp_float)|].
  apply dict_step; [apply (proj1 cmp_int)|].
  apply dict_step; [apply (proj1 cmp_float)|].
  apply dict_step; [apply (proj1 cmp_int)|].
  reflexivity.
Qed.
Lemma Type50_moves g : moves g Type50_asdict (Type50_floats g).
Proof.
  intros x. apply dict_moves.
  constructor; [split; [reflexivity|exact (keeps_int g _)]|].
  constructor; [split; [reflexivity|exact ((fun g => keeps_list_ g _ (AttackOrArmor_moves g)) g _)]|].
  constructor; [split; [reflexivity|exact ((fun g => keeps_list_ g _ (AttackOrArmor_moves g)) g _)]|].
  constructor; [split; [reflexivity|exact (keeps_int g _)]|].
  constructor; [split; [reflexivity|exact (moves_float g _)]|].
  constructor; [split; [reflexivity|exact (moves_float g _)]|].
  constructor; [split; [reflexivity|exact (moves_float g _)]|].
  constructor; [split; [reflexivity|exact (moves_float g _)]|].
  constructor; [split; [reflexivity|exact (keeps_int g _)]|].
  constructor; [split; [reflexivity|exact (keeps_int g _)]|].
  constructor; [split; [reflexivity|exact (keeps_int g _)]|].
  constructor; [split; [reflexivity|exact (keeps_int g _)]|].
  constructor; [split; [reflexivity|exact ((fun g => moves_list g _ _ (moves_float g)) g _)]|].
  constructor; [split; [reflexivity|exact (keeps_int g _)]|].
  constructor; [split; [reflexivity|exact (moves_float g _)]|].
  constructor; [split; [reflexivity|exact (moves_float g _)]|].
  constructor; [split; [reflexivity|exact (keeps_int g _)]|].
  constructor; [split; [reflexivity|exact (keeps_int g _)]|].
  constructor; [split; [reflexivity|exact (keeps_int g _)]|].
  constructor; [split; [reflexivity|exact (moves_float g _)]|].
  constructor; [split; [reflexivity|exact (moves_float g _)]|].
  constructor; [split; [reflexivity|exact (moves_float g _)]|].
  constructor; [split; [reflexivity|exact (moves_float g _)]|].
  constructor; [split; [reflexivity|exact (moves_float g _)]|].
  constructor; [split; [reflexivity|exact (keeps_int g _)]|].
  constructor; [split; [reflexivity|exact (moves_float g _)]|].
  constructor; [split; [reflexivity|exact (keeps_int g _)]|].
  constructor.
Qed.
Lemma Projectile_cmp : cmp Projectile_asdict Projectile_eq.
Proof.
  split; [|discriminate]. intros x y.
  apply dict_step; [apply (proj1 cmp_int)|].
  apply dict_step; [apply (proj1 cmp_int)|].
  apply dict_step; [apply (proj1 cmp_int)|].
  apply dict_step; [apply (proj1 cmp_int)|].
  apply dict_step; [apply (proj1 cmp_int)|].
  apply dict_step; [apply (proj1 cmp_float)|].
  reflexivity.
Qed.
Lemma Projectile_moves g : moves g Projectile_asdict (Projectile_floats g).
Proof.
  intros x. apply dict_moves.
  constructor; [split; [reflexivity|exact (keeps_int g _)]|].
  constructor; [split; [reflexivity|exact (keeps_int g _)]|].
  constructor; [split; [reflexivity|exact (keeps_int g _)]|].
  constructor; [split; [reflexivity|exact (keeps_int g _)]|].
  constructor; [split; [reflexivity|exact (keeps_int g _)]|].
  constructor; [split; [reflexivity|exact (moves_float g _)]|].
  constructor.
Qed.
Lemma ResourceCost_cmp : cmp ResourceCost_asdict ResourceCost_eq.
Proof.
  split; [|discriminate]. intros x y.
  apply dict_step; [apply (proj1 cmp_int)|].
  apply dict_step; [apply (proj1 cmp_int)|].
  apply dict_step; [apply (proj1 cmp_int)|].
  reflexivity.
Qed.
Lemma ResourceCost_moves g : keeps_ g ResourceCost_asdict.
Proof.
  intros x. apply dict_moves.
  constructor; [split; [reflexivity|exact (keeps_int g _)]|].
  constructor; [split; [reflexivity|exact (keeps_int g _)]|].
  constructor; [split; [reflexivity|exact (keeps_int g _)]|].
  constructor.
Qed.
Lemma TrainLocation_cmp : cmp TrainLocation_asdict TrainLocation_eq.
Proof.
  split; [|discriminate]. intros x y.
  apply dict_step; [apply (proj1 cmp_int)|].
  apply dict_step; [apply (proj1 cmp_int)|].
  apply dict_step; [apply (proj1 cmp_int)|].
  apply dict_step; [apply (proj1 cmp_int)|].
  reflexivity.
Qed.
Lemma TrainLocation_moves g : keeps_ g TrainLocation_asdict.
Proof.
  intros x. apply dict_moves.
  constructor; [split; [reflexivity|exact (keeps_int g _)]|].
  constructor; [split; [reflexivity|exact (keeps_int g _)]|].
  constructor; [split; [reflexivity|exact (keeps_int g _)]|].
  constructor; [split; [reflexivity|exact (keeps_int g _)]|].
  constructor.
Qed.
Lemma Creatable_cmp : cmp Creatable_asdict Creatable_eq.
Proof.
  split; [|discriminate]. intros x y.
  apply dict_step; [apply (proj1 (cmp_list _ _ (proj1 ResourceCost_cmp)))|].
  apply dict_step; [apply (proj1 (cmp_list _ _ (proj1 TrainLocation_cmp)))|].
  apply dict_step; [apply (proj1 cmp_float)|].
  apply dict_step; [apply (proj1 cmp_float)|].
  apply dict_step; [apply (proj1 cmp_int)|].
  apply dict_step; [apply (proj1 cmp_int)|].
  apply dict_step; [apply (proj1 cmp_int)|].
  apply dict_step; [apply (proj1 cmp_int)|].
  apply dict_step; [apply (proj1 cmp_int)|].
  apply dict_step; [apply (proj1 cmp_int)|].
  apply dict_step; [apply (proj1 cmp_int)|].
  apply dict_step; [apply (proj1 cmp_float)|].
  apply dict_step; [apply (proj1 cmp_float)|].
  apply dict_step; [apply (proj1 cmp_int)|].
  apply dict_step; [apply (proj1 cmp_int)|].
  apply dict_step; [apply (proj1 cmp_int)|].
  apply dict_step; [apply (proj1 cmp_int)|].
  apply dict_step; [apply (proj1 cmp_int)|].
  apply dict_step; [apply (proj1 cmp_float)|].
  apply dict_step; [apply (proj1 cmp_int)|].
  apply dict_step; [apply (proj1 cmp_int)|].
  apply dict_step; [apply (proj1 cmp_int)|].
  apply dict_step; [apply (proj1 cmp_int)|].
  apply dict_step; [apply (proj1 cmp_float)|].
  apply dict_step; [apply (proj1 cmp_float)|].
  apply dict_step; [apply (proj1 cmp_float)|].
  apply dict_step; [apply (proj1 cmp_float)|].
  apply dict_step; [apply (proj1 cmp_int)|].
  apply dict_step; [apply (proj1 (cmp_list _ _ (proj1 cmp_float)))|].
  apply dict_step; [apply (proj1 cmp_int)|].
  apply dict_step; [apply (proj1 cmp_int)|].
  apply dict_step; [apply (proj1 cmp_int)|].
  apply dict_step; [apply (proj1 cmp_int)|].
  reflexivity.
Qed.
Lemma Creatable_moves g : moves g Creatable_asdict (Creatable_floats g).
Proof.
  intros x. apply dict_moves.
  constructor; [split; [reflexivity|exact ((fun g => keeps_list_ g _ (ResourceCost_moves g)) g _)]|].
  constructor; [split; [reflexivity|exact ((fun g => keeps_list_ g _ (TrainLocation_moves g)) g _)]|].
  constructor; [split; [reflexivity|exact (moves_float g _)]|].
  constructor; [split; [reflexivity|exact (moves_float g _)]|].
  constructor; [split; [reflexivity|exact (keeps_int g _)]|].
  constructor; [split; [reflexivity|exact (keeps_int g _)]|].
  constructor; [split; [reflexivity|exact (keeps_int g _)]|].
  constructor; [split; [reflexivity|exact (keeps_int g _)]|].
  constructor; [split; [reflexivity|exact (keeps_int g _)]|].
  constructor; [split; [reflexivity|exact (keeps_int g _)]|].
  constructor; [split; [reflexivity|exact (keeps_int g _)]|].
  constructor; [split; [reflexivity|exact (moves_float g _)]|].
  constructor; [split; [reflexivity|exact (moves_float g _)]|].
  constructor; [split; [reflexivity|exact (keeps_int g _)]|].
  constructor; [split; [reflexivity|exact (keeps_int g _)]|].
  constructor; [split; [reflexivity|exact (keeps_int g _)]|].
  constructor; [split; [reflexivity|exact (keeps_int g _)]|].
  constructor; [split; [reflexivity|exact (keeps_int g _)]|].
  constructor; [split; [reflexivity|exact (moves_float g _)]|].
  constructor; [split; [reflexivity|exact (keeps_int g _)]|].
  constructor; [split; [reflexivity|exact (keeps_int g _)]|].
  constructor; [split; [reflexivity|exact (keeps_int g _)]|].
  constructor; [split; [reflexivity|exact (keeps_int g _)]|].
  constructor; [split; [reflexivity|exact (moves_float g _)]|].
  constructor; [split; [reflexivity|exact (moves_float g _)]|].
  constructor; [split; [reflexivity|exact (moves_float g _)]|].
  constructor; [split; [reflexivity|exact (moves_float g _)]|].
  constructor; [split; [reflexivity|exact (keeps_int g _)]|].
  constructor; [split; [reflexivity|exact ((fun g => moves_list g _ _ (moves_float g)) g _)]|].
  constructor; [split; [reflexivity|exact (keeps_int g _)]|].
  constructor; [split; [reflexivity|exact (keeps_int g _)]|].
  constructor; [split; [reflexivity|exact (keeps_int g _)]|].
  constructor; [split; [reflexivity|exact (keeps_int g _)]|].
  constructor.
Qed.
Lemma BuildingAnnex_cmp : cmp BuildingAnnex_asdict BuildingAnnex_eq.
Proof.
  split; [|discriminate]. intros x y.
  apply dict_step; [apply (proj1 cmp_int)|].
  apply dict_step; [apply (proj1 cmp_float)|].
  apply dict_step; [apply (proj1 cmp_float)|].
  reflexivity.
Qed.
Lemma BuildingAnnex_moves g : moves g BuildingAnnex_asdict (BuildingAnnex_floats g).
Proof.
  intros x. apply dict_moves.
  constructor; [split; [reflexivity|exact (keeps_int g _)]|].
  constructor; [split; [reflexivity|exact (moves_float g _)]|].
  constructor; [split; [reflexivity|exact (moves_float g _)]|].
  constructor.
Qed.
Lemma Building_cmp : cmp Building_asdict Building_eq.
Proof.
  split; [|discriminate]. intros x y.
  apply dict_step; [apply (proj1 cmp_int)|].
  apply dict_step; [apply (proj1 cmp_int)|].
  apply dict_step; [apply (proj1 cmp_int)|].
  apply dict_step; [apply (proj1 cmp_int)|].
  apply dict_step; [apply (proj1 cmp_int)|].
  apply dict_step; [apply (proj1 cmp_int)|].
  apply dict_step; [apply (proj1 cmp_int)|].
  apply dict_step; [apply (proj1 cmp_int)|].
  apply dict_step; [apply (proj1 cmp_int)|].
  apply dict_step; [apply (proj1 cmp_int)|].
  apply dict_step; [apply (proj1 cmp_int)|].
  apply dict_step; [apply (proj1 cmp_int)|].
  apply dict_step; [apply (proj1 cmp_int)|].
  apply dict_step; [apply (proj1 cmp_int)|].
  apply dict_step; [apply (proj1 (cmp_list _ _ (proj1 BuildingAnnex_cmp)))|].
  apply dict_step; [apply (proj1 cmp_int)|].
  apply dict_step; [apply (proj1 cmp_int)|].
  apply dict_step; [apply (proj1 cmp_int)|].
  apply dict_step; [apply (proj1 cmp_int)|].
  apply dict_step; [apply (proj1 cmp_int)|].
  apply dict_step; [apply (proj1 cmp_int)|].
  apply dict_step; [apply (proj1 cmp_int)|].
  apply dict_step; [apply (proj1 cmp_float)|].
  apply dict_step; [apply (proj1 cmp_float)|].
  apply dict_step; [apply (proj1 cmp_int)|].
  apply dict_step; [apply (proj1 (cmp_list _ _ (proj1 cmp_int)))|].
  reflexivity.
Qed.
Lemma Building_moves g : moves g Building_asdict (Building_floats g).
Proof.
  intros x. apply dict_moves.
  constructor; [split; [reflexivity|exact (keeps_int g _)]|].
  constructor; [split; [reflexivity|exact (keeps_int g _)]|].
  constructor; [split; [reflexivity|exact (keeps_int g _)]|].
  constructor; [split; [reflexivity|exact (keeps_int g _)]|].
  constructor; [split; [reflexivity|exact (keeps_int g _)]|].
  constructor; [split; [reflexivity|exact (keeps_int g _)]|].
  constructor; [split; [reflexivity|exact (keeps_int g _)]|].
  constructor; [split; [reflexivity|exact (keeps_int g _)]|].
  constructor; [split; [reflexivity|exact (keeps_int g _)]|].
  constructor; [split; [reflexivity|exact (keeps_int g _)]|].
  constructor; [split; [reflexivity|exact (keeps_int g _)]|].
  constructor; [split; [reflexivity|exact (keeps_int g _)]|].
  constructor; [split; [reflexivity|exact (keeps_int g _)]|].
  constructor; [split; [reflexivity|exact (keeps_int g _)]|].
  constructor; [split; [reflexivity|exact ((fun g => moves_list g _ _ (BuildingAnnex_moves g)) g _)]|].
  constructor; [split; [reflexivity|exact (keeps_int g _)]|].
  constructor; [split; [reflexivity|exact (keeps_int g _)]|].
  constructor; [split; [reflexivity|exact (keeps_int g _)]|].
  constructor; [split; [reflexivity|exact (keeps_int g _)]|].
  constructor; [split; [reflexivity|exact (keeps_int g _)]|].
  constructor; [split; [reflexivity|exact (keeps_int g _)]|].
  constructor; [split; [reflexivity|exact (keeps_int g _)]|].
  constructor; [split; [reflexivity|exact (moves_float g _)]|].
  constructor; [split; [reflexivity|exact (moves_float g _)]|].
  constructor; [split; [reflexivity|exact (keeps_int g _)]|].
  constructor; [split; [reflexivity|exact ((fun g => keeps_list_ g _ (keeps_int g)) g _)]|].
  constructor.
Qed.
Lemma Unit_cmp : cmp Unit_asdict Unit_eq.
Proof.
  split; [|discriminate]. intros x y.
  apply dict_step; [apply (proj1 cmp_int)|].
  apply dict_step; [apply (proj1 cmp_int)|].
  apply dict_step; [apply (proj1 cmp_int)|].
  apply dict_step; [apply (proj1 cmp_int)|].
  apply dict_step; [apply (proj1 cmp_int)|].
  apply dict_step; [apply (proj1 (cmp_list _ _ (proj1 cmp_int)))|].
  apply dict_step; [apply (proj1 cmp_int)|].
  apply dict_step; [apply (proj1 cmp_int)|].
  apply dict_step; [apply (proj1 cmp_int)|].
  apply dict_step; [apply (proj1 cmp_int)|].
  apply dict_step; [apply (proj1 cmp_float)|].
  apply dict_step; [apply (proj1 cmp_int)|].
  apply dict_step; [apply (proj1 cmp_float)|].
  apply dict_step; [apply (proj1 cmp_float)|].
  apply dict_step; [apply (proj1 cmp_float)|].
  apply dict_step; [apply (proj1 cmp_int)|].
  apply dict_step; [apply (proj1 cmp_int)|].
  apply dict_step; [apply (proj1 cmp_int)|].
  apply dict_step; [apply (proj1 cmp_int)|].
  apply dict_step; [apply (proj1 cmp_int)|].
  apply dict_step; [apply (proj1 cmp_int)|].
  apply dict_step; [apply (proj1 cmp_int)|].
  apply dict_step; [apply (proj1 cmp_int)|].
  apply dict_step; [apply (proj1 cmp_int)|].
  apply dict_step; [apply (proj1 cmp_int)|].
  apply dict_step; [apply (proj1 cmp_int)|].
  apply dict_step; [apply (proj1 (cmp_list _ _ (proj1 cmp_int)))|].
  apply dict_step; [apply (proj1 (cmp_list _ _ (proj1 cmp_int)))|].
  apply dict_step; [apply (proj1 (cmp_list _ _ (proj1 cmp_float)))|].
  apply dict_step; [apply (proj1 cmp_int)|].
  apply dict_step; [apply (proj1 cmp_int)|].
  apply dict_step; [apply (proj1 cmp_int)|].
  apply dict_step; [apply (proj1 cmp_int)|].
  apply dict_step; [apply (proj1 cmp_int)|].
  apply dict_step; [apply (proj1 cmp_float)|].
  apply dict_step; [apply (proj1 cmp_int)|].
  apply dict_step; [apply (proj1 cmp_int)|].
  apply dict_step; [apply (proj1 cmp_int)|].
  apply dict_step; [apply (proj1 cmp_int)|].
  apply dict_step; [apply (proj1 cmp_int)|].
  apply dict_step; [apply (proj1 cmp_float)|].
  apply dict_step; [apply (proj1 cmp_int)|].
  apply dict_step; [apply (proj1 cmp_int)|].
  apply dict_step; [apply (proj1 cmp_int)|].
  apply dict_step; [apply (proj1 cmp_int)|].
  apply dict_step; [apply (proj1 cmp_int)|].
  apply dict_step; [apply (proj1 cmp_int)|].
  apply dict_step; [apply (proj1 cmp_int)|].
  apply dict_step; [apply (proj1 cmp_int)|].
  apply dict_step; [apply (proj1 cmp_int)|].
  apply dict_step; [apply (proj1 cmp_int)|].
  apply dict_step; [apply (proj1 cmp_int)|].
  apply dict_step; [apply (proj1 cmp_int)|].
  apply dict_step; [apply (proj1 cmp_int)|].
  apply dict_step; [apply (proj1 cmp_int)|].
  apply dict_step; [apply (proj1 cmp_int)|].
  apply dict_step; [apply (proj1 cmp_int)|].
  apply dict_step; [apply (proj1 cmp_float)|].
  apply dict_step; [apply (proj1 cmp_float)|].
  apply dict_step; [apply (proj1 cmp_float)|].
  apply dict_step; [apply (proj1 cmp_int)|].
  apply dict_step; [apply (proj1 cmp_int)|].
  apply dict_step; [apply (proj1 (cmp_list _ _ (proj1 ResourceStorage_cmp)))|].
  apply dict_step; [apply (proj1 (cmp_list _ _ (proj1 DamageGraphic_cmp)))|].
  apply dict_step; [apply (proj1 cmp_int)|].
  apply dict_step; [apply (proj1 cmp_int)|].
  apply dict_step; [apply (proj1 cmp_int)|].
  apply dict_step; [apply (proj1 cmp_int)|].
  apply dict_step; [apply (proj1 cmp_int)|].
  apply dict_step; [apply (proj1 cmp_int)|].
  apply dict_step; [apply (proj1 cmp_int)|].
  apply dict_step; [apply (proj1 cmp_int)|].
  apply dict_step; [apply (proj1 cmp_str)|].
  apply dict_step; [apply (proj1 cmp_int)|].
  apply dict_step; [apply (proj1 cmp_int)|].
  apply dict_step; [apply (cmp_option _ _ cmp_float)|].
  apply dict_step; [apply (cmp_option _ _ DeadFish_cmp)|].
  apply dict_step; [apply (cmp_option _ _ Bird_cmp)|].
  apply dict_step; [apply (cmp_option _ _ Type50_cmp)|].
  apply dict_step; [apply (cmp_option _ _ Projectile_cmp)|].
  apply dict_step; [apply (cmp_option _ _ Creatable_cmp)|].
  apply dict_step; [apply (cmp_option _ _ Building_cmp)|].
  reflexivity.
Qed.
Lemma Unit_moves g : moves g Unit_asdict (Unit_floats g).
Proof.
  intros x. apply dict_moves.
  constructor; [split; [reflexivity|exact (keeps_int g _)]|].
  constructor; [split; [reflexivity|exact (keeps_int g _)]|].
  constructor; [split; [reflexivity|exact (keeps_int g _)]|].
  constructor; [split; [reflexivity|exact (keeps_int g _)]|].
  constructor; [split; [reflexivity|exact (keeps_int g _)]|].
  constructor; [split; [reflexivity|exact ((fun g => keeps_list_ g _ (keeps_int g)) g _)]|].
  constructor; [split; [reflexivity|exact (keeps_int g _)]|].
  constructor; [split; [reflexivity|exact (keeps_int g _)]|].
  constructor; [split; [reflexivity|exact (keeps_int g _)]|].
  constructor; [split; [reflexivity|exact (keeps_int g _)]|].
  constructor; [split; [reflexivity|exact (moves_float g _)]|].
  constructor; [split; [reflexivity|exact (keeps_int g _)]|].
  constructor; [split; [reflexivity|exact (moves_float g _)]|].
  constructor; [split; [reflexivity|exact (moves_float g _)]|].
  constructor; [split; [reflexivity|exact (moves_float g _)]|].
  constructor; [split; [reflexivity|exact (keeps_int g _)]|].
  constructor; [split; [reflexivity|exact (keeps_int g _)]|].
  constructor; [split; [reflexivity|exact (keeps_int g _)]|].
  constructor; [split; [reflexivity|exact (keeps_int g _)]|].
  constructor; [split; [reflexivity|exact (keeps_int g _)]|].
  constructor; [split; [reflexivity|exact (keeps_int g _)]|].
  constructor; [split; [reflexivity|exact (keeps_int g _)]|].
  constructor; [split; [reflexivity|exact (keeps_int g _)]|].
  constructor; [split; [reflexivity|exact (keeps_int g _)]|].
  constructor; [split; [reflexivity|exact (keeps_int g _)]|].
  constructor; [split; [reflexivity|exact (keeps_int g _)]|].
  constructor; [split; [reflexivity|exact ((fun g => keeps_list_ g _ (keeps_int g)) g _)]|].
  constructor; [split; [reflexivity|exact ((fun g => keeps_list_ g _ (keeps_int g)) g _)]|].
  constructor; [split; [reflexivity|exact ((fun g => moves_list g _ _ (moves_float g)) g _)]|].
  constructor; [split; [reflexivity|exact (keeps_int g _)]|].
  constructor; [split; [reflexivity|exact (keeps_int g _)]|].
  constructor; [split; [reflexivity|exact (keeps_int g _)]|].
  constructor; [split; [reflexivity|exact (keeps_int g _)]|].
  constructor; [split; [reflexivity|exact (keeps_int g _)]|].
  constructor; [split; [reflexivity|exact (moves_float g _)]|].
  constructor; [split; [reflexivity|exact (keeps_int g _)]|].
  constructor; [split; [reflexivity|exact (keeps_int g _)]|].
  constructor; [split; [reflexivity|exact (keeps_int g _)]|].
  constructor; [split; [reflexivity|exact (keeps_int g _)]|].
  constructor; [split; [reflexivity|exact (keeps_int g _)]|].
  constructor; [split; [reflexivity|exact (moves_float g _)]|].
  constructor; [split; [reflexivity|exact (keeps_int g _)]|].
  constructor; [split; [reflexivity|exact (keeps_int g _)]|].
  constructor; [split; [reflexivity|exact (keeps_int g _)]|].
  constructor; [split; [reflexivity|exact (keeps_int g _)]|].
  constructor; [split; [reflexivity|exact (keeps_int g _)]|].
  constructor; [split; [reflexivity|exact (keeps_int g _)]|].
  constructor; [split; [reflexivity|exact (keeps_int g _)]|].
  constructor; [split; [reflexivity|exact (keeps_int g _)]|].
  constructor; [split; [reflexivity|exact (keeps_int g _)]|].
  constructor; [split; [reflexivity|exact (keeps_int g _)]|].
  constructor; [split; [reflexivity|exact (keeps_int g _)]|].
  constructor; [split; [reflexivity|exact (keeps_int g _)]|].
  constructor; [split; [reflexivity|exact (keeps_int g _)]|].
  constructor; [split; [reflexivity|exact (keeps_int g _)]|].
  constructor; [split; [reflexivity|exact (keeps_int g _)]|].
  constructor; [split; [reflexivity|exact (keeps_int g _)]|].
  constructor; [split; [reflexivity|exact (moves_float g _)]|].
  constructor; [split; [reflexivity|exact (moves_float g _)]|].
  constructor; [split; [reflexivity|exact (moves_float g _)]|].
  constructor; [split; [reflexivity|exact (keeps_int g _)]|].
  constructor; [split; [reflexivity|exact (keeps_int g _)]|].
  constructor; [split; [reflexivity|exact ((fun g => moves_list g _ _ (ResourceStorage_moves g)) g _)]|].
  constructor; [split; [reflexivity|exact ((fun g => keeps_list_ g _ (DamageGraphic_moves g)) g _)]|].
  constructor; [split; [reflexivity|exact (keeps_int g _)]|].
  constructor; [split; [reflexivity|exact (keeps_int g _)]|].
  constructor; [split; [reflexivity|exact (keeps_int g _)]|].
  constructor; [split; [reflexivity|exact (keeps_int g _)]|].
  constructor; [split; [reflexivity|exact (keeps_int g _)]|].
  constructor; [split; [reflexivity|exact (keeps_int g _)]|].
  constructor; [split; [reflexivity|exact (keeps_int g _)]|].
  constructor; [split; [reflexivity|exact (keeps_int g _)]|].
  constructor; [split; [reflexivity|exact (keeps_text g _)]|].
  constructor; [split; [reflexivity|exact (keeps_int g _)]|].
  constructor; [split; [reflexivity|exact (keeps_int g _)]|].
  constructor; [split; [reflexivity|exact ((fun g => moves_option g _ _ (moves_float g)) g _)]|].
  constructor; [split; [reflexivity|exact ((fun g => moves_option g _ _ (DeadFish_moves g)) g _)]|].
  constructor; [split; [reflexivity|exact ((fun g => moves_option g _ _ (Bird_moves g)) g _)]|].
  constructor; [split; [reflexivity|exact ((fun g => moves_option g _ _ (Type50_moves g)) g _)]|].
  constructor; [split; [reflexivity|exact ((fun g => moves_option g _ _ (Projectile_moves g)) g _)]|].
  constructor; [split; [reflexivity|exact ((fun g => moves_option g _ _ (Creatable_moves g)) g _)]|].
  constructor; [split; [reflexivity|exact ((fun g => moves_option g _ _ (Building_moves g)) g _)]|].
  constructor.
Qed.
Lemma Civ_cmp : cmp Civ_asdict Civ_eq.
Proof.
  split; [|discriminate]. intros x y.
  apply dict_step; [apply (proj1 cmp_int)|].
  apply dict_step; [apply (proj1 cmp_str)|].
  apply dict_step; [apply (proj1 cmp_int)|].
  apply dict_step; [apply (proj1 cmp_int)|].
  apply dict_step; [apply (proj1 (cmp_list _ _ (proj1 cmp_float)))|].
  apply dict_step; [apply (proj1 cmp_int)|].
  apply dict_step; [apply (proj1 (cmp_list _ _ (cmp_option _ _ Unit_cmp)))|].
  reflexivity.
Qed.
Lemma Civ_moves g : moves g Civ_asdict (Civ_floats g).
Proof.
  intros x. apply dict_moves.
  constructor; [split; [reflexivity|exact (keeps_int g _)]|].
  constructor; [split; [reflexivity|exact (keeps_text g _)]|].
  constructor; [split; [reflexivity|exact (keeps_int g _)]|].
  constructor; [split; [reflexivity|exact (keeps_int g _)]|].
  constructor; [split; [reflexivity|exact ((fun g => moves_list g _ _ (moves_float g)) g _)]|].
  constructor; [split; [reflexivity|exact (keeps_int g _)]|].
  constructor; [split; [reflexivity|exact ((fun g => moves_list g _ _ ((fun g => moves_option g _ _ (Unit_moves g)) g)) g _)]|].
  constructor.
Qed.
Lemma ResearchResourceCost_cmp : cmp ResearchResourceCost_asdict ResearchResourceCost_eq.
Proof.
  split; [|discriminate]. intros x y.
  apply dict_step; [apply (proj1 cmp_int)|].
  apply dict_step; [apply (proj1 cmp_int)|].
  apply dict_step; [apply (proj1 cmp_int)|].
  reflexivity.
Qed.
Lemma ResearchResourceCost_moves g : keeps_ g ResearchResourceCost_asdict.
Proof.
  intros x. apply dict_moves.
  constructor; [split; [reflexivity|exact (keeps_int g _)]|].
  constructor; [split; [reflexivity|exact (keeps_int g _)]|].
  constructor; [split; [reflexivity|exact (keeps_int g _)]|].
  constructor.
Qed.
Lemma ResearchLocation_cmp : cmp ResearchLocation_asdict ResearchLocation_eq.
Proof.
  split; [|discriminate]. intros x y.
  apply dict_step; [apply (proj1 cmp_int)|].
  apply dict_step; [apply (proj1 cmp_int)|].
  apply dict_step; [apply (proj1 cmp_int)|].
  apply dict_step; [apply (proj1 cmp_int)|].
  reflexivity.
Qed.
Lemma ResearchLocation_moves g : keeps_ g ResearchLocation_asdict.
Proof.
  intros x. apply dict_moves.
  constructor; [split; [reflexivity|exact (keeps_int g _)]|].
  constructor; [split; [reflexivity|exact (keeps_int g _)]|].
  constructor; [split; [reflexivity|exact (keeps_int g _)]|].
  constructor; [split; [reflexivity|exact (keeps_int g _)]|].
  constructor.
Qed.
Lemma Tech_cmp : cmp Tech_asdict Tech_eq.
Proof.
  split; [|discriminate]. intros x y.
  apply dict_step; [apply (proj1 (cmp_list _ _ (proj1 cmp_int)))|].
  apply dict_step; [apply (proj1 (cmp_list _ _ (proj1 ResearchResourceCost_cmp)))|].
  apply dict_step; [apply (proj1 cmp_int)|].
  apply dict_step; [apply (proj1 cmp_int)|].
  apply dict_step; [apply (proj1 cmp_int)|].
  apply dict_step; [apply (proj1 cmp_int)|].
  apply dict_step; [apply (proj1 cmp_int)|].
  apply dict_step; [apply (proj1 cmp_int)|].
  apply dict_step; [apply (proj1 cmp_int)|].
  apply dict_step; [apply (proj1 cmp_int)|].
  apply dict_step; [apply (proj1 cmp_int)|].
  apply dict_step; [apply (proj1 cmp_int)|].
  apply dict_step; [apply (proj1 cmp_str)|].
  apply dict_step; [apply (proj1 cmp_int)|].
  apply dict_step; [apply (proj1 (cmp_list _ _ (proj1 ResearchLocation_cmp)))|].
  reflexivity.
Qed.
Lemma Tech_moves g : keeps_ g Tech_asdict.
Proof.
  intros x. apply dict_moves.
  constructor; [split; [reflexivity|exact ((fun g => keeps_list_ g _ (keeps_int g)) g _)]|].
  constructor; [split; [reflexivity|exact ((fun g => keeps_list_ g _ (ResearchResourceCost_moves g)) g _)]|].
  constructor; [split; [reflexivity|exact (keeps_int g _)]|].
  constructor; [split; [reflexivity|exact (keeps_int g _)]|].
  constructor; [split; [reflexivity|exact (keeps_int g _)]|].
  constructor; [split; [reflexivity|exact (keeps_int g _)]|].
  constructor; [split; [reflexivity|exact (keeps_int g _)]|].
  constructor; [split; [reflexivity|exact (keeps_int g _)]|].
  constructor; [split; [reflexivity|exact (keeps_int g _)]|].
  constructor; [split; [reflexivity|exact (keeps_int g _)]|].
  constructor; [split; [reflexivity|exact (keeps_int g _)]|].
  constructor; [split; [reflexivity|exact (keeps_int g _)]|].
  constructor; [split; [reflexivity|exact (keeps_text g _)]|].
  constructor; [split; [reflexivity|exact (keeps_int g _)]|].
  constructor; [split; [reflexivity|exact ((fun g => keeps_list_ g _ (ResearchLocation_moves g)) g _)]|].
  constructor.
Qed.
Lemma Common_cmp : cmp Common_asdict Common_eq.
Proof.
  split; [|discriminate]. intros x y.
  apply dict_step; [apply (proj1 cmp_int)|].
  apply dict_step; [apply (proj1 (cmp_list _ _ (proj1 cmp_int)))|].
  apply dict_step; [apply (proj1 (cmp_list _ _ (proj1 cmp_int)))|].
  reflexivity.
Qed.
Lemma Common_moves g : keeps_ g Common_asdict.
Proof.
  intros x. apply dict_moves.
  constructor; [split; [reflexivity|exact (keeps_int g _)]|].
  constructor; [split; [reflexivity|exact ((fun g => keeps_list_ g _ (keeps_int g)) g _)]|].
  constructor; [split; [reflexivity|exact ((fun g => keeps_list_ g _ (keeps_int g)) g _)]|].
  constructor.
Qed.
Lemma TechTreeAge_cmp : cmp TechTreeAge_asdict TechTreeAge_eq.
Proof.
  split; [|discriminate]. intros x y.
  apply dict_step; [apply (proj1 cmp_int)|].
  apply dict_step; [apply (proj1 cmp_int)|].
  apply dict_step; [apply (proj1 (cmp_list _ _ (proj1 cmp_int)))|].
  apply dict_step; [apply (proj1 (cmp_list _ _ (proj1 cmp_int)))|].
  apply dict_step; [apply (proj1 (cmp_list _ _ (proj1 cmp_int)))|].
  apply dict_step; [apply (proj1 Common_cmp)|].
  apply dict_step; [apply (proj1 cmp_int)|].
  apply dict_step; [apply (proj1 (cmp_list _ _ (proj1 cmp_int)))|].
  apply dict_step; [apply (proj1 (cmp_list _ _ (proj1 cmp_int)))|].
  apply dict_step; [apply (proj1 cmp_int)|].
  apply dict_step; [apply (proj1 cmp_int)|].
  reflexivity.
Qed.
Lemma TechTreeAge_moves g : keeps_ g TechTreeAge_asdict.
Proof.
  intros x. apply dict_moves.
  constructor; [split; [reflexivity|exact (keeps_int g _)]|].
  constructor; [split; [reflexivity|exact (keeps_int g _)]|].
  constructor; [split; [reflexivity|exact ((fun g => keeps_list_ g _ (keeps_int g)) g _)]|].
  constructor; [split; [reflexivity|exact ((fun g => keeps_list_ g _ (keeps_int g)) g _)]|].
  constructor; [split; [reflexivity|exact ((fun g => keeps_list_ g _ (keeps_int g)) g _)]|].
  constructor; [split; [reflexivity|exact (Common_moves g _)]|].
  constructor; [split; [reflexivity|exact (keeps_int g _)]|].
  constructor; [split; [reflexivity|exact ((fun g => keeps_list_ g _ (keeps_int g)) g _)]|].
  constructor; [split; [reflexivity|exact ((fun g => keeps_list_ g _ (keeps_int g)) g _)]|].
  constructor; [split; [reflexivity|exact (keeps_int g _)]|].
  constructor; [split; [reflexivity|exact (keeps_int g _)]|].
  constructor.
Qed.
Lemma BuildingConnection_cmp : cmp BuildingConnection_asdict BuildingConnection_eq.
Proof.
  split; [|discriminate]. intros x y.
  apply dict_step; [apply (proj1 cmp_int)|].
  apply dict_step; [apply (proj1 cmp_int)|].
  apply dict_step; [apply (proj1 (cmp_list _ _ (proj1 cmp_int)))|].
  apply dict_step; [apply (proj1 (cmp_list _ _ (proj1 cmp_int)))|].
  apply dict_step; [apply (proj1 (cmp_list _ _ (proj1 cmp_int)))|].
  apply dict_step; [apply (proj1 Common_cmp)|].
  apply dict_step; [apply (proj1 cmp_int)|].
  apply dict_step; [apply (proj1 (cmp_list _ _ (proj1 cmp_int)))|].
  apply dict_step; [apply (proj1 (cmp_list _ _ (proj1 cmp_int)))|].
  apply dict_step; [apply (proj1 cmp_int)|].
  apply dict_step; [apply (proj1 cmp_int)|].
  reflexivity.
Qed.
Lemma BuildingConnection_moves g : keeps_ g BuildingConnection_asdict.
Proof.
  intros x. apply dict_moves.
  constructor; [split; [reflexivity|exact (keeps_int g _)]|].
  constructor; [split; [reflexivity|exact (keeps_int g _)]|].
  constructor; [split; [reflexivity|exact ((fun g => keeps_list_ g _ (keeps_int g)) g _)]|].
  constructor; [split; [reflexivity|exact ((fun g => keeps_list_ g _ (keeps_int g)) g _)]|].
  constructor; [split; [reflexivity|exact ((fun g => keeps_list_ g _ (keeps_int g)) g _)]|].
  constructor; [split; [reflexivity|exact (Common_moves g _)]|].
  constructor; [split; [reflexivity|exact (keeps_int g _)]|].
  constructor; [split; [reflexivity|exact ((fun g => keeps_list_ g _ (keeps_int g)) g _)]|].
  constructor; [split; [reflexivity|exact ((fun g => keeps_list_ g _ (keeps_int g)) g _)]|].
  constructor; [split; [reflexivity|exact (keeps_int g _)]|].
  constructor; [split; [reflexivity|exact (keeps_int g _)]|].
  constructor.
Qed.
Lemma UnitConnection_cmp : cmp UnitConnection_asdict UnitConnection_eq.
Proof.
  split; [|discriminate]. intros x y.
  apply dict_step; [apply (proj1 cmp_int)|].
  apply dict_step; [apply (proj1 cmp_int)|].
  apply dict_step; [apply (proj1 cmp_int)|].
  apply dict_step; [apply (proj1 Common_cmp)|].
  apply dict_step; [apply (proj1 cmp_int)|].
  apply dict_step; [apply (proj1 (cmp_list _ _ (proj1 cmp_int)))|].
  apply dict_step; [apply (proj1 cmp_int)|].
  apply dict_step; [apply (proj1 cmp_int)|].
  apply dict_step; [apply (proj1 cmp_int)|].
  apply dict_step; [apply (proj1 cmp_int)|].
  reflexivity.
Qed.
Lemma UnitConnection_moves g : keeps_ g UnitConnection_asdict.
Proof.
  intros x. apply dict_moves.
  constructor; [split; [reflexivity|exact (keeps_int g _)]|].
  constructor; [split; [reflexivity|exact (keeps_int g _)]|].
  constructor; [split; [reflexivity|exact (keeps_int g _)]|].
  constructor; [split; [reflexivity|exact (Common_moves g _)]|].
  constructor; [split; [reflexivity|exact (keeps_int g _)]|].
  constructor; [split; [reflexivity|exact ((fun g => keeps_list_ g _ (keeps_int g)) g _)]|].
  constructor; [split; [reflexivity|exact (keeps_int g _)]|].
  constructor; [split; [reflexivity|exact (keeps_int g _)]|].
  constructor; [split; [reflexivity|exact (keeps_int g _)]|].
  constructor; [split; [reflexivity|exact (keeps_int g _)]|].
  constructor.
Qed.
Lemma ResearchConnection_cmp : cmp ResearchConnection_asdict ResearchConnection_eq.
Proof.
  split; [|discriminate]. intros x y.
  apply dict_step; [apply (proj1 cmp_int)|].
  apply dict_step; [apply (proj1 cmp_int)|].
  apply dict_step; [apply (proj1 cmp_int)|].
  apply dict_step; [apply (proj1 (cmp_list _ _ (proj1 cmp_int)))|].
  apply dict_step; [apply (proj1 (cmp_list _ _ (proj1 cmp_int)))|].
  apply dict_step; [apply (proj1 (cmp_list _ _ (proj1 cmp_int)))|].
  apply dict_step; [apply (proj1 Common_cmp)|].
  apply dict_step; [apply (proj1 cmp_int)|].
  apply dict_step; [apply (proj1 cmp_int)|].
  apply dict_step; [apply (proj1 cmp_int)|].
  reflexivity.
Qed.
Lemma ResearchConnection_moves g : keeps_ g ResearchConnection_asdict.
Proof.
  intros x. apply dict_moves.
  constructor; [split; [reflexivity|exact (keeps_int g _)]|].
  constructor; [split; [reflexivity|exact (keeps_int g _)]|].
  constructor; [split; [reflexivity|exact (keeps_int g _)]|].
  constructor; [split; [reflexivity|exact ((fun g => keeps_list_ g _ (keeps_int g)) g _)]|].
  constructor; [split; [reflexivity|exact ((fun g => keeps_list_ g _ (keeps_int g)) g _)]|].
  constructor; [split; [reflexivity|exact ((fun g => keeps_list_ g _ (keeps_int g)) g _)]|].
  constructor; [split; [reflexivity|exact (Common_moves g _)]|].
  constructor; [split; [reflexivity|exact (keeps_int g _)]|].
  constructor; [split; [reflexivity|exact (keeps_int g _)]|].
  constructor; [split; [reflexivity|exact (keeps_int g _)]|].
  constructor.
Qed.
Lemma TechTree_cmp : cmp TechTree_asdict TechTree_eq.
Proof.
  split; [|discriminate]. intros x y.
  apply dict_step; [apply (proj1 cmp_int)|].
  apply dict_step; [apply (proj1 (cmp_list _ _ (proj1 TechTreeAge_cmp)))|].
  apply dict_step; [apply (proj1 (cmp_list _ _ (proj1 BuildingConnection_cmp)))|].
  apply dict_step; [apply (proj1 (cmp_list _ _ (proj1 UnitConnection_cmp)))|].
  apply dict_step; [apply (proj1 (cmp_list _ _ (proj1 ResearchConnection_cmp)))|].
  reflexivity.
Qed.
Lemma TechTree_moves g : keeps_ g TechTree_asdict.
Proof.
  intros x. apply dict_moves.
  constructor; [split; [reflexivity|exact (keeps_int g _)]|].
  constructor; [split; [reflexivity|exact ((fun g => keeps_list_ g _ (TechTreeAge_moves g)) g _)]|].
  constructor; [split; [reflexivity|exact ((fun g => keeps_list_ g _ (BuildingConnection_moves g)) g _)]|].
  constructor; [split; [reflexivity|exact ((fun g => keeps_list_ g _ (UnitConnection_moves g)) g _)]|].
  constructor; [split; [reflexivity|exact ((fun g => keeps_list_ g _ (ResearchConnection_moves g)) g _)]|].
  constructor.
Qed.
Lemma DatFile_cmp : cmp DatFile_asdict DatFile_eq.
Proof.
  split; [|discriminate]. intros x y.
  apply dict_step; [apply (proj1 cmp_str)|].
  apply dict_step; [apply (proj1 (cmp_list _ _ (proj1 cmp_int)))|].
  apply dict_step; [apply (proj1 (cmp_list _ _ (proj1 cmp_int)))|].
  apply dict_step; [apply (proj1 (cmp_list _ _ (proj1 TerrainRestriction_cmp)))|].
  apply dict_step; [apply (proj1 (cmp_list _ _ (proj1 PlayerColour_cmp)))|].
  apply dict_step; [apply (proj1 (cmp_list _ _ (proj1 Sound_cmp)))|].
  apply dict_step; [apply (proj1 (cmp_list _ _ (cmp_option _ _ Graphic_cmp)))|].
  apply dict_step; [apply (proj1 TerrainBlock_cmp)|].
  apply dict_step; [apply (proj1 RandomMaps_cmp)|].
  apply dict_step; [apply (proj1 (cmp_list _ _ (proj1 Effect_cmp)))|].
  apply dict_step; [apply (proj1 (cmp_list _ _ (proj1 UnitHeaders_cmp)))|].
  apply dict_step; [apply (proj1 (cmp_list _ _ (proj1 Civ_cmp)))|].
  apply dict_step; [apply (proj1 (cmp_list _ _ (proj1 Tech_cmp)))|].
  apply dict_step; [apply (proj1 cmp_int)|].
  apply dict_step; [apply (proj1 cmp_int)|].
  apply dict_step; [apply (proj1 cmp_int)|].
  apply dict_step; [apply (proj1 cmp_int)|].
  apply dict_step; [apply (proj1 cmp_int)|].
  apply dict_step; [apply (proj1 cmp_int)|].
  apply dict_step; [apply (proj1 cmp_int)|].
  apply dict_step; [apply (proj1 TechTree_cmp)|].
  reflexivity.
Qed.
Lemma DatFile_moves g : moves g DatFile_asdict (DatFile_floats g).
Proof.
  intros x. apply dict_moves.
  constructor; [split; [reflexivity|exact (keeps_text g _)]|].
  constructor; [split; [reflexivity|exact ((fun g => keeps_list_ g _ (keeps_int g)) g _)]|].
  constructor; [split; [reflexivity|exact ((fun g => keeps_list_ g _ (keeps_int g)) g _)]|].
  constructor; [split; [reflexivity|exact ((fun g => moves_list g _ _ (TerrainRestriction_moves g)) g _)]|].
  constructor; [split; [reflexivity|exact ((fun g => keeps_list_ g _ (PlayerColour_moves g)) g _)]|].
  constructor; [split; [reflexivity|exact ((fun g => keeps_list_ g _ (Sound_moves g)) g _)]|].
  constructor; [split; [reflexivity|exact ((fun g => moves_list g _ _ ((fun g => moves_option g _ _ (Graphic_moves g)) g)) g _)]|].
  constructor; [split; [reflexivity|exact (TerrainBlock_moves g _)]|].
  constructor; [split; [reflexivity|exact (RandomMaps_moves g _)]|].
  constructor; [split; [reflexivity|exact ((fun g => moves_list g _ _ (Effect_moves g)) g _)]|].
  constructor; [split; [reflexivity|exact ((fun g => moves_list g _ _ (UnitHeaders_moves g)) g _)]|].
  constructor; [split; [reflexivity|exact ((fun g => moves_list g _ _ (Civ_moves g)) g _)]|].
  constructor; [split; [reflexivity|exact ((fun g => keeps_list_ g _ (Tech_moves g)) g _)]|].
  constructor; [split; [reflexivity|exact (keeps_int g _)]|].
  constructor; [split; [reflexivity|exact (keeps_int g _)]|].
  constructor; [split; [reflexivity|exact (keeps_int g _)]|].
  constructor; [split; [reflexivity|exact (keeps_int g _)]|].
  constructor; [split; [reflexivity|exact (keeps_int g _)]|].
  constructor; [split; [reflexivity|exact (keeps_int g _)]|].
  constructor; [split; [reflexivity|exact (keeps_int g _)]|].
  constructor; [split; [reflexivity|exact (TechTree_moves g _)]|].
  constructor.
Qed.
