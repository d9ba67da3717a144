(** * C45: the comparison [==] of loaded objects. *)
From Verif Require Import Base PyInt PyFloat PyStr Versions Wire Layout Shape Spec Update FS Dump Json FloatSpec Floats Rounded Equal.
From Verif Require Import M_Sound M_PlayerColour M_Effect M_TerrainRestriction M_Graphic
  M_TerrainBlock M_RandomMaps M_Task M_UnitHeaders M_Unit M_Civ M_Tech M_TechTree M_DatFile.
From Verif Require Import Common Codec CodecC P_Unit P_Civ P_DatFile Theory FloatP Sample JsonP FloatsP EqualP Props_Dat Props_FS Props_Dump Props_Rounded.
From Coq Require Import String.
Open Scope Z_scope.
Local Open Scope list_scope.

(** ** Specification *)
(** The numbers in an object, as the dump lists them. *)
Definition numbers (x : DatFile) : list f64 := floats_in (DatFile_asdict x).
Definition no_nan (x : DatFile) : Prop := forall t, In t (numbers x) -> ~ f64_nan t.
Definition negative_zero : f64 := f64_of_bits (2 ^ 63).
Definition no_negative_zero (x : DatFile) : Prop := ~ In negative_zero (numbers x).
(** Negative zero becomes zero, everything else stays. *)
Definition plus_zero (t : f64) : f64 := if f64_eqb t negative_zero then f64_zero else t.
(** Two bytes that differ in the sign bit of a zero at most. *)
Definition zero_sign (a b : byte) : Prop :=
  a = b \/ (a = byte_of 0 /\ b = byte_of 128) \/ (a = byte_of 128 /\ b = byte_of 0).

(** ** Floats *)
Lemma is_nan_spec x : is_nan x = true <-> f64_nan x.
Proof.
  unfold is_nan, f64_nan. change (d_exp x) with (f64_exp (f64_bits x)). change (d_man x) with (f64_man (f64_bits x)).
  rewrite andb_true_iff, negb_true_iff, Z.eqb_eq, Z.eqb_neq. reflexivity.
Qed.
Lemma is_nan_false x : is_nan x = false <-> ~ f64_nan x.
Proof. rewrite <- is_nan_spec. destruct (is_nan x); split; congruence. Qed.
Lemma is_zero_cases x : is_zero x = true <-> x = f64_zero \/ x = negative_zero.
Proof.
  split.
  - unfold is_zero. rewrite andb_true_iff, !Z.eqb_eq. intros [E M]. destruct (f64_split _ (f64_bits_range x)) as (B & S & _ & _).
    rewrite E, M in B. assert (C : f64_sign (f64_bits x) = 0 \/ f64_sign (f64_bits x) = 1) by lia.
    destruct C as [C|C]; rewrite C in B; [left|right]; apply f64_bits_inj; rewrite B; vm_compute; reflexivity.
  - intros [->| ->]; vm_compute; reflexivity.
Qed.
Lemma plus_zero_eq x y : plus_zero x = plus_zero y <-> x = y \/ (is_zero x = true /\ is_zero y = true).
Proof.
  rewrite !is_zero_cases. unfold plus_zero. destruct (f64_eqb x negative_zero) eqn:X, (f64_eqb y negative_zero) eqn:Y;
    rewrite ?f64_eqb_eq in X; rewrite ?f64_eqb_eq in Y; subst.
  - tauto.
  - split; [intros <-; tauto|]. intros [<-|[_ [->| ->]]]; [|reflexivity|]; rewrite (proj2 (f64_eqb_eq _ _) eq_refl) in Y; discriminate.
  - split; [intros ->; tauto|]. intros [->|[[->| ->] _]]; [|reflexivity|]; rewrite (proj2 (f64_eqb_eq _ _) eq_refl) in X; discriminate.
  - split; [tauto|]. intros [H|[[->| ->] [->| ->]]]; try exact H; try reflexivity; rewrite (proj2 (f64_eqb_eq _ _) eq_refl) in *; discriminate.
Qed.
Lemma float_eq_char x y : float_eq x y = true <-> ~ f64_nan x /\ ~ f64_nan y /\ plus_zero x = plus_zero y.
Proof.
  unfold float_eq. rewrite plus_zero_eq, !andb_true_iff, !negb_true_iff, !is_nan_false, orb_true_iff, f64_eqb_eq, andb_true_iff. tauto.
Qed.
Lemma value_zero x : f64_finite x -> f64_value x = 0 -> is_zero x = true.
Proof.
  intros F V. unfold is_zero. assert (M : f64_mag x = 0) by (unfold f64_value in V; destruct (d_sign x =? 0); lia). unfold f64_mag in M.
  change (d_exp x) with (f64_exp (f64_bits x)) in *. change (d_man x) with (f64_man (f64_bits x)) in *.
  destruct (f64_split _ (f64_bits_range x)) as (_ & _ & E & Mm). destruct (f64_exp (f64_bits x) =? 0) eqn:Z; [rewrite M; reflexivity|].
  pose proof (Z.pow_pos_nonneg 2 (f64_exp (f64_bits x) - 1) ltac:(lia) ltac:(lia)). nia.
Qed.
Lemma zero_value x : is_zero x = true -> f64_value x = 0.
Proof. intros Z. apply is_zero_cases in Z as [->| ->]; vm_compute; reflexivity. Qed.
Lemma finite_not_nan x : f64_finite x -> ~ f64_nan x.
Proof. unfold f64_finite, f64_nan. tauto. Qed.

(** *** C45_float: numbers are equal iff they are the same number; NaN is never equal; an infinity
    is equal to itself only *)
Theorem C45_float : forall x y,
  (f64_nan x \/ f64_nan y -> float_eq x y = false) /\
  (f64_finite x -> f64_finite y -> (float_eq x y = true <-> f64_value x = f64_value y)) /\
  (~ f64_finite x -> ~ f64_nan x -> (float_eq x y = true <-> x = y)).
Proof.
  intros x y. split; [|split].
  - intros N. destruct (float_eq x y) eqn:E; [|reflexivity]. apply float_eq_char in E. tauto.
  - intros Fx Fy. rewrite float_eq_char, plus_zero_eq. split.
    + intros (_ & _ & [->|[A B]]); [reflexivity|]. rewrite (zero_value x A), (zero_value y B). reflexivity.
    + intros V. split; [apply finite_not_nan, Fx|]. split; [apply finite_not_nan, Fy|].
      destruct (Z.eq_dec (f64_value x) 0) as [Z|Z]; [right; split; apply value_zero; congruence|]. left.
      apply f64_value_inj; try assumption. unfold f64_value in V, Z.
      assert (P : forall t, 0 <= f64_mag t).
      { intros t. unfold f64_mag. change (d_exp t) with (f64_exp (f64_bits t)). change (d_man t) with (f64_man (f64_bits t)).
        destruct (f64_split _ (f64_bits_range t)) as (_ & _ & E & Mm). destruct (f64_exp (f64_bits t) =? 0) eqn:Zt; [lia|].
        pose proof (Z.pow_pos_nonneg 2 (f64_exp (f64_bits t) - 1) ltac:(lia) ltac:(lia)). nia. }
      pose proof (P x). pose proof (P y). change (d_sign x) with (f64_sign (f64_bits x)) in *. change (d_sign y) with (f64_sign (f64_bits y)) in *.
      destruct (f64_split _ (f64_bits_range x)) as (_ & Sx & _ & _). destruct (f64_split _ (f64_bits_range y)) as (_ & Sy & _ & _).
      destruct (f64_sign (f64_bits x) =? 0) eqn:A, (f64_sign (f64_bits y) =? 0) eqn:B; lia.
  - intros F N. rewrite float_eq_char, plus_zero_eq. split.
    + intros (_ & _ & [E|[Z _]]); [exact E|]. exfalso. apply F. apply is_zero_cases in Z as [->| ->]; vm_compute; discriminate.
    + intros <-. tauto.
Qed.

(** ** Trees *)
Definition nan_free (t : tree) : Prop := forall f, In f (floats_in t) -> ~ f64_nan f.
Lemma nan_free_list a l : nan_free (TList (a :: l)) <-> nan_free a /\ nan_free (TList l).
Proof.
  unfold nan_free. cbn [floats_in flat_map]. split.
  - intros H. split; intros f I; apply H, in_app_iff; [left|right]; exact I.
  - intros [A B] f I. apply in_app_iff in I as [I|I]; auto.
Qed.
Lemma nan_free_dict k a l : nan_free (TDict ((k, a) :: l)) <-> nan_free a /\ nan_free (TDict l).
Proof.
  unfold nan_free. cbn [floats_in flat_map snd]. split.
  - intros H. split; intros f I; apply H, in_app_iff; [left|right]; exact I.
  - intros [A B] f I. apply in_app_iff in I as [I|I]; auto.
Qed.
Lemma str_eq_iff a b : str_eq a b = true <-> a = b.
Proof.
  unfold str_eq. revert b. induction a as [|c a IH]; intros [|d b]; cbn [list_eq]; try (split; congruence).
  rewrite andb_true_iff, Z.eqb_eq, IH. split; [intros [-> ->]; reflexivity|intros [= -> ->]; auto].
Qed.
Lemma nan_free_leaf t : floats_in t = [] -> nan_free t.
Proof. intros E f I. rewrite E in I. destruct I. Qed.
Lemma same_char : forall t u, same t u = true <-> nan_free t /\ nan_free u /\ tree_floats plus_zero t = tree_floats plus_zero u.
Proof.
  induction t using tree_rec'; intros u.
  - destruct u; cbn [same tree_floats]; try (split; [discriminate|intros (_ & _ & E); discriminate E]).
    split; [|reflexivity]. intros _. split; [|split]; try (apply nan_free_leaf); reflexivity.
  - destruct u; cbn [same tree_floats]; try (split; [discriminate|intros (_ & _ & E); discriminate E]).
    unfold int_eq. rewrite Z.eqb_eq. split; [intros ->; split; [|split]; try (apply nan_free_leaf); reflexivity|]. intros (_ & _ & [= E]). exact E.
  - destruct u; cbn [same tree_floats]; try (split; [discriminate|intros (_ & _ & E); discriminate E]).
    rewrite float_eq_char. unfold nan_free. cbn [floats_in]. split.
    + intros (A & B & ->). split; [intros f [<-|[]]; exact A|]. split; [intros f [<-|[]]; exact B|reflexivity].
    + intros (A & B & E). split; [apply A; left; reflexivity|]. split; [apply B; left; reflexivity|]. congruence.
  - destruct u; cbn [same tree_floats]; try (split; [discriminate|intros (_ & _ & E); discriminate E]).
    rewrite str_eq_iff. split; [intros ->; split; [|split]; try (apply nan_free_leaf); reflexivity|]. intros (_ & _ & [= E]). exact E.
  - destruct u as [| | | |m|m]; try (cbn [same tree_floats]; split; [discriminate|intros (_ & _ & E); discriminate E]).
    revert m. induction H as [|a l Ha Hl IH]; intros [|b m].
    + cbn. split; [|reflexivity]. intros _. split; [|split]; try (apply nan_free_leaf); reflexivity.
    + cbn. split; [discriminate|intros (_ & _ & E); discriminate E].
    + cbn. split; [discriminate|intros (_ & _ & E); discriminate E].
    + change (same (TList (a :: l)) (TList (b :: m))) with (same a b && same (TList l) (TList m)).
      rewrite andb_true_iff, Ha, IH, !nan_free_list. cbn [tree_floats map]. split.
      * intros ((A & B & C) & (D & E & F)). injection F as F. rewrite C, F. tauto.
      * intros ((A & B) & (C & D) & E). injection E as E F. rewrite E, F. tauto.
  - destruct u as [| | | |m|m]; try (cbn [same tree_floats]; split; [discriminate|intros (_ & _ & E); discriminate E]).
    revert m. induction H as [|[j a] l Ha Hl IH]; intros [|[k b] m].
    + cbn. split; [|reflexivity]. intros _. split; [|split]; try (apply nan_free_leaf); reflexivity.
    + cbn. split; [discriminate|intros (_ & _ & E); discriminate E].
    + cbn. split; [discriminate|intros (_ & _ & E); discriminate E].
    + change (same (TDict ((j, a) :: l)) (TDict ((k, b) :: m))) with (String.eqb j k && (same a b && same (TDict l) (TDict m))).
      cbn [snd] in Ha. rewrite !andb_true_iff, Ha, IH, !nan_free_dict, String.eqb_eq. cbn [tree_floats map fst snd]. split.
      * intros (-> & (A & B & C) & (D & E & F)). injection F as F. rewrite C, F. tauto.
      * intros ((A & B) & (C & D) & E). injection E as J E F. rewrite E, F. tauto.
Qed.

(** ** C45 *)
(** Two files are equal iff none has a NaN and they agree in everything but the signs of zeros. *)
Theorem C45_equal : forall x y, DatFile_eq x y = true <->
  no_nan x /\ no_nan y /\ DatFile_floats plus_zero x = DatFile_floats plus_zero y.
Proof.
  intros x y. rewrite <- (proj1 DatFile_cmp), same_char, !(DatFile_moves plus_zero _). unfold no_nan, numbers, nan_free.
  split; intros (A & B & C); (split; [exact A|split; [exact B|]]); [apply C34_DatFile, C|rewrite C; reflexivity].
Qed.
(** Loading the same bytes twice gives equal objects iff there is no NaN among the numbers. *)
Theorem C45_load_twice : forall bs x y, from_bytes bs = Ok x -> from_bytes bs = Ok y -> (DatFile_eq x y = true <-> no_nan x).
Proof. intros bs x y E F. assert (x = y) by congruence. subst y. rewrite C45_equal. tauto. Qed.
(** The same for saving and loading. *)
Theorem C45_reload : forall x, DatFile_wf x -> exists bs y, to_bytes x = Ok bs /\ from_bytes bs = Ok y /\ (DatFile_eq x y = true <-> no_nan x).
Proof. intros x W. destruct (dat_round_trip_bytes x W) as (bs & E & F & _). exists bs, x. rewrite C45_equal. tauto. Qed.
(** Without negative zeros equal objects are the same in every field. *)
Lemma tree_plus_zero t : ~ In negative_zero (floats_in t) -> tree_floats plus_zero t = t.
Proof.
  induction t using tree_rec'; intros N; try reflexivity.
  - cbn [tree_floats]. unfold plus_zero. destruct (f64_eqb x negative_zero) eqn:E; [|reflexivity]. apply f64_eqb_eq in E. exfalso. apply N. left. exact E.
  - cbn [tree_floats]. f_equal. induction H as [|a l Ha Hl IH]; [reflexivity|]. cbn [map]. cbn [floats_in flat_map] in N.
    rewrite Ha, IH; [reflexivity| |]; intros I; apply N, in_app_iff; auto.
  - cbn [tree_floats]. f_equal. induction H as [|[k a] l Ha Hl IH]; [reflexivity|]. cbn [map fst snd] in *. cbn [floats_in flat_map fst snd] in N.
    rewrite Ha, IH; [reflexivity| |]; intros I; apply N, in_app_iff; auto.
Qed.
Theorem C45_identical : forall x y, no_negative_zero x -> no_negative_zero y -> (DatFile_eq x y = true <-> x = y /\ no_nan x).
Proof.
  intros x y Nx Ny. rewrite C45_equal. split.
  - intros (A & _ & E). split; [|exact A]. apply C34_DatFile. apply (f_equal DatFile_asdict) in E.
    rewrite <- !(DatFile_moves plus_zero _), (tree_plus_zero _ Nx), (tree_plus_zero _ Ny) in E. exact E.
  - intros [-> A]. tauto.
Qed.
(** Equality is an equivalence on objects without NaN. *)
Theorem C45_reflexive : forall x, DatFile_eq x x = true <-> no_nan x.
Proof. intros x. rewrite C45_equal. tauto. Qed.
Theorem C45_symmetric : forall x y, DatFile_eq x y = DatFile_eq y x.
Proof.
  assert (H : forall x y, DatFile_eq x y = true -> DatFile_eq y x = true).
  { intros x y. rewrite !C45_equal. intros (A & B & C). auto. }
  intros x y. pose proof (H x y). pose proof (H y x). destruct (DatFile_eq x y), (DatFile_eq y x); intuition congruence.
Qed.
Theorem C45_transitive : forall x y z, DatFile_eq x y = true -> DatFile_eq y z = true -> DatFile_eq x z = true.
Proof. intros x y z. rewrite !C45_equal. intros (A & _ & B) (_ & C & D). split; [exact A|split; [exact C|congruence]]. Qed.

(** *** What equal objects are saved as *)
Lemma plus_zero_cell c d b : cell_map plus_zero c = cell_map plus_zero d -> cell_bytes c = Some b -> exists b', cell_bytes d = Some b' /\ Forall2 zero_sign b b'.
Proof.
  assert (R : forall l, Forall2 zero_sign l l) by (induction l; constructor; [left; reflexivity|assumption]).
  assert (Z : forall s t, is_zero s = true -> is_zero t = true -> f64_too_large s = false /\ f64_too_large t = false /\
    Forall2 zero_sign (little_endian 4 (f32_of_f64 s)) (little_endian 4 (f32_of_f64 t))).
  { intros s t S T. apply is_zero_cases in S as [->| ->]; apply is_zero_cases in T as [->| ->]; (split; [reflexivity|split; [reflexivity|]]);
      vm_compute; repeat (constructor; [unfold zero_sign; auto|]); constructor. }
  intros E H.
  destruct c, d; try discriminate E; cbn [cell_map] in E; try (injection E as ->; exists b; split; [exact H|apply R]);
    try (injection E as -> ->; exists b; split; [exact H|apply R]); try discriminate H.
  - assert (P : plus_zero x = plus_zero x0) by congruence. apply plus_zero_eq in P as [->|[S T]]; [exists b; split; [exact H|apply R]|].
    destruct (Z _ _ S T) as (A & B & C). unfold cell_bytes in *. injection H as <-. eexists. split; [reflexivity|exact C].
  - assert (P : plus_zero x = plus_zero x0) by congruence. apply plus_zero_eq in P as [->|[S T]]; [exists b; split; [exact H|apply R]|].
    destruct (Z _ _ S T) as (A & B & C). unfold cell_bytes in *. rewrite A in H. rewrite B. injection H as <-. eexists. split; [reflexivity|exact C].
Qed.
Lemma plus_zero_cells l : forall m b, map (cell_map plus_zero) l = map (cell_map plus_zero) m -> encode l = Some b ->
  exists b', encode m = Some b' /\ Forall2 zero_sign b b'.
Proof.
  induction l as [|c l IH]; intros [|d m] b E H; try discriminate E.
  - exists b. split; [exact H|]. injection H as <-. constructor.
  - cbn [map] in E. injection E as E F. rewrite encode_cons in *. destruct (cell_bytes c) as [p|] eqn:P; [|discriminate H].
    destruct (encode l) as [q|] eqn:Q; [|discriminate H]. injection H as <-.
    destruct (plus_zero_cell c d p E P) as (p' & -> & R). destruct (IH m q F eq_refl) as (q' & -> & S).
    exists (p' ++ q'). split; [reflexivity|]. apply Forall2_app; assumption.
Qed.
Lemma Forall_iff {A} (P Q : A -> Prop) l : (forall a, P a <-> Q a) -> Forall P l <-> Forall Q l.
Proof. intros H. split; apply Forall_impl; intros a; apply H. Qed.
Lemma arity_floats g x : DatFile_arity (DatFile_floats g x) <-> DatFile_arity x.
Proof.
  unfold DatFile_arity, DatFile_floats. cbn [DatFile_civs]. rewrite Forall_map. apply Forall_iff. intros c.
  unfold Civ_arity, Civ_floats. cbn [Civ_units]. rewrite Forall_map. apply Forall_iff. intros [u|]; [|reflexivity].
  unfold on_some, option_map, Unit_arity, Unit_floats. cbn [Unit_placement_side_terrain Unit_placement_terrain Unit_clearance_size].
  rewrite count_map. reflexivity.
Qed.
(** Equal objects are both saved or both refused; the saved bytes differ in signs of zeros at most. *)
Theorem C45_saved : forall x y bs, Forall Civ_arity (DatFile_civs x) -> DatFile_eq x y = true -> to_bytes x = Ok bs ->
  exists cs, to_bytes y = Ok cs /\ Forall2 zero_sign bs cs.
Proof.
  intros x y bs A E S. apply C45_equal in E as (_ & _ & E). change (DatFile_arity x) in A.
  assert (B : DatFile_arity y) by (apply (arity_floats plus_zero); rewrite <- E; apply arity_floats, A).
  pose proof (to_bytes_table x UNDEFINED A) as L. pose proof (to_bytes_table y UNDEFINED B) as M. unfold to_bytes in *. rewrite S in L. cbn [returned] in L.
  symmetry in L. destruct (plus_zero_cells (DatFile_layout x) (DatFile_layout y) bs) as (cs & C & F); [rewrite !file_norm, E; reflexivity|exact L|].
  rewrite C in M. destruct (DatFile_to_bytes y UNDEFINED) as [c|]; [|discriminate M]. injection M as ->. exists cs. split; [reflexivity|exact F].
Qed.
(** Files read without loss and without rest, without negative zeros: equal objects come from the
    same bytes. *)
Theorem C45_bytes : forall bs cs x y h k, DatFile_from_bytes (new_handler bs) = Ok (x, h) -> DatFile_from_bytes (new_handler cs) = Ok (y, k) ->
  h_losses h = [] -> h_offset h = List.length bs -> h_losses k = [] -> h_offset k = List.length cs ->
  no_negative_zero x -> no_negative_zero y -> DatFile_eq x y = true -> bs = cs.
Proof.
  intros bs cs x y h k Ex Ey L1 O1 L2 O2 Nx Ny E. apply (proj1 (C45_identical x y Nx Ny)) in E as [-> _].
  exact (C34_bytes bs cs y y h k Ex Ey L1 O1 L2 O2 eq_refl).
Qed.

(** ** Cases *)
(** The sample file is equal to itself; it has no NaN and no negative zero. *)
Lemma case_numbers : no_nan (sample VER_88) /\ no_negative_zero (sample VER_88).
Proof.
  assert (H : forallb (fun t => negb (is_nan t) && negb (f64_eqb t negative_zero)) (numbers (sample VER_88)) = true) by (vm_compute; reflexivity).
  rewrite forallb_forall in H. split.
  - intros t I. specialize (H t I). apply andb_true_iff in H as [H _]. apply negb_true_iff in H. apply is_nan_false, H.
  - intros I. specialize (H _ I). vm_compute in H. discriminate H.
Qed.
Example C45_case : exists bs y, to_bytes (sample VER_88) = Ok bs /\ from_bytes bs = Ok y /\ DatFile_eq (sample VER_88) y = true.
Proof.
  assert (U : VER_88 <> UNDEFINED) by discriminate. destruct (C45_reload (sample VER_88) (sample_wf VER_88 U)) as (bs & y & E & F & H). exists bs, y. split; [exact E|]. split; [exact F|].
  apply H, case_numbers.
Qed.
Lemma ok_inj {A} (x y : A) : Ok x = Ok y -> x = y. Proof. intros [= H]. exact H. Qed.
Lemma min_x_inj x s t : with_min_x s x = with_min_x t x -> s = t.
Proof.
  intros H. apply (f_equal (fun d => TerrainBlock_map_min_x (DatFile_terrain_block d))) in H. revert H.
  unfold with_min_x. destruct x as [? ? ? ? ? ? ? []]. exact (fun H => H).
Qed.
(** Equal objects, different files: zero against negative zero in one place. *)
Example C45_case_zero : exists bs cs, to_bytes (with_min_x f64_zero (sample VER_88)) = Ok bs /\
  to_bytes (with_min_x negative_zero (sample VER_88)) = Ok cs /\ bs <> cs /\
  DatFile_eq (with_min_x f64_zero (sample VER_88)) (with_min_x negative_zero (sample VER_88)) = true.
Proof.
  assert (U : VER_88 <> UNDEFINED) by discriminate. destruct (C41_one_number (sample VER_88) f64_zero (sample_wf VER_88 U)) as (bs & E & F).
  destruct (C41_one_number (sample VER_88) negative_zero (sample_wf VER_88 U)) as (cs & G & H). exists bs, cs. split; [exact E|]. split; [exact G|]. split.
  - intros ->. rewrite F in H. apply ok_inj, min_x_inj, (f_equal f64_bits) in H. vm_compute in H. discriminate H.
  - vm_compute; reflexivity.
Qed.
(** A NaN in one place: the file is saved and loaded, twice, and the two objects are not equal. *)
Definition quiet_nan : f64 := f64_of_bits (4095 * 2 ^ 51).
Example C45_case_nan : exists bs x, to_bytes (with_min_x quiet_nan (sample VER_88)) = Ok bs /\
  from_bytes bs = Ok x /\ DatFile_eq x x = false.
Proof.
  assert (U : VER_88 <> UNDEFINED) by discriminate. destruct (C41_one_number (sample VER_88) quiet_nan (sample_wf VER_88 U)) as (bs & E & F).
  assert (N : nearest quiet_nan = quiet_nan) by (vm_compute; reflexivity). rewrite N in F. exists bs, (with_min_x quiet_nan (sample VER_88)).
  split; [exact E|]. split; [exact F|]. vm_compute; reflexivity.
Qed.

Definition all_of_this_file := (C45_float, C45_equal, C45_load_twice, C45_reload, C45_identical, C45_reflexive, C45_symmetric, C45_transitive,
  C45_saved, C45_bytes, C45_case, C45_case_zero, C45_case_nan).
Print Assumptions all_of_this_file.
