(** * C60: [==] on the objects that the source text makes.

    C45 is about the comparison of two typed records; here two object graphs on the heap of Py.v, made by
    running the source text, are compared by Python's rules ([py_eq], PySame.v). *)
From Verif Require Import Base PyInt PyFloat PyStr PyStruct DataTypes Versions Common Py Source PyRep PyPure PyPureSim PyW PyWE Deep PyWC PyWS PyWD CliL CliS Equal PySame.
From Verif Require Import M_Sound M_PlayerColour M_Effect M_TerrainRestriction M_Graphic
  M_TerrainBlock M_RandomMaps M_Task M_UnitHeaders M_Unit M_Civ M_Tech M_TechTree M_DatFile.
From Verif Require Import Dump Json Spec Shape Update Sample Floats Rounded Edit Props_Rounded Props_Dat Props_Source Props_Equal PyR PyRE PyTree PyLoad P_DatFile Props_Load.
From Verif Require Import Props_Readme Props_Programs FS Props_FS World Props_World PyKinds PyNew PyCopy PyEdit Props_Edits Props_Copies PyR.
From Coq Require Import String Ascii Lia.
Open Scope Z_scope.
Local Open Scope list_scope.

(** ** Objects of one class *)
(** [v == w], for objects [v] and [w] that stand for the records [x] and [y] and share nothing, is [e x y]. *)
Notation own := (@PyR.own Any).
Definition compares {A} (D : A -> deep) (e : A -> A -> bool) : Prop := forall n h x y v w fp fq, (9 <= n)%nat ->
  own h (D x) v fp -> own h (D y) w fq -> share_nothing fp fq -> py_eq n h v w = Some (e x y).
Lemma compares_of {A} (D : A -> deep) e (T : A -> tree) : (forall n x, says false (9 + n) (D x) (T x)) -> (forall x y, deq (D x) (D y) = e x y) -> compares D e.
Proof.
  intros Y E n h x y v w fp fq N O P AP. replace n with (9 + (n - 9))%nat by lia. rewrite (eq_own _ h _ _ _ _ _ _ _ _ O P (Y _ x) (Y _ y) AP), E. reflexivity.
Qed.
Ltac by_class X Y := eapply compares_of; [intros n x; cbn [Nat.add]; apply X|apply Y].
Theorem C60_SoundItem : compares SoundItem_deep SoundItem_eq. Proof. by_class SoundItem_new SoundItem_deq. Qed.
Theorem C60_Sound : compares Sound_deep Sound_eq. Proof. by_class Sound_new Sound_deq. Qed.
Theorem C60_PlayerColour : compares PlayerColour_deep PlayerColour_eq. Proof. by_class PlayerColour_new PlayerColour_deq. Qed.
Theorem C60_EffectCommand : compares EffectCommand_deep EffectCommand_eq. Proof. by_class EffectCommand_new EffectCommand_deq. Qed.
Theorem C60_Effect : compares Effect_deep Effect_eq. Proof. by_class Effect_new Effect_deq. Qed.
Theorem C60_TerrainPassGraphic : compares TerrainPassGraphic_deep TerrainPassGraphic_eq. Proof. by_class TerrainPassGraphic_new TerrainPassGraphic_deq. Qed.
Theorem C60_TerrainRestriction : compares TerrainRestriction_deep TerrainRestriction_eq. Proof. by_class TerrainRestriction_new TerrainRestriction_deq. Qed.
Theorem C60_GraphicDelta : compares GraphicDelta_deep GraphicDelta_eq. Proof. by_class GraphicDelta_new GraphicDelta_deq. Qed.
Theorem C60_GraphicAngleSound : compares GraphicAngleSound_deep GraphicAngleSound_eq. Proof. by_class GraphicAngleSound_new GraphicAngleSound_deq. Qed.
Theorem C60_Graphic : compares Graphic_deep Graphic_eq. Proof. by_class Graphic_new Graphic_deq. Qed.
Theorem C60_FrameData : compares FrameData_deep FrameData_eq. Proof. by_class FrameData_new FrameData_deq. Qed.
Theorem C60_Terrain : compares Terrain_deep Terrain_eq. Proof. by_class Terrain_new Terrain_deq. Qed.
Theorem C60_TileSize : compares TileSize_deep TileSize_eq. Proof. by_class TileSize_new TileSize_deq. Qed.
Theorem C60_TerrainBlock : compares TerrainBlock_deep TerrainBlock_eq. Proof. by_class TerrainBlock_new TerrainBlock_deq. Qed.
Theorem C60_MapUnit : compares MapUnit_deep MapUnit_eq. Proof. by_class MapUnit_new MapUnit_deq. Qed.
Theorem C60_MapTerrain : compares MapTerrain_deep MapTerrain_eq. Proof. by_class MapTerrain_new MapTerrain_deq. Qed.
Theorem C60_MapLand : compares MapLand_deep MapLand_eq. Proof. by_class MapLand_new MapLand_deq. Qed.
Theorem C60_MapElevation : compares MapElevation_deep MapElevation_eq. Proof. by_class MapElevation_new MapElevation_deq. Qed.
Theorem C60_MapInfo : compares MapInfo_deep MapInfo_eq. Proof. by_class MapInfo_new MapInfo_deq. Qed.
Theorem C60_RandomMaps : compares RandomMaps_deep RandomMaps_eq. Proof. by_class RandomMaps_new RandomMaps_deq. Qed.
Theorem C60_Task : compares Task_deep Task_eq. Proof. by_class Task_new Task_deq. Qed.
Theorem C60_UnitHeaders : compares UnitHeaders_deep UnitHeaders_eq. Proof. by_class UnitHeaders_new UnitHeaders_deq. Qed.
Theorem C60_ResourceStorage : compares ResourceStorage_deep ResourceStorage_eq. Proof. by_class ResourceStorage_new ResourceStorage_deq. Qed.
Theorem C60_DamageGraphic : compares DamageGraphic_deep DamageGraphic_eq. Proof. by_class DamageGraphic_new DamageGraphic_deq. Qed.
Theorem C60_DeadFish : compares DeadFish_deep DeadFish_eq. Proof. by_class DeadFish_new DeadFish_deq. Qed.
Theorem C60_Bird : compares Bird_deep Bird_eq. Proof. by_class Bird_new Bird_deq. Qed.
Theorem C60_AttackOrArmor : compares AttackOrArmor_deep AttackOrArmor_eq. Proof. by_class AttackOrArmor_new AttackOrArmor_deq. Qed.
Theorem C60_Type50 : compares Type50_deep Type50_eq. Proof. by_class Type50_new Type50_deq. Qed.
Theorem C60_Projectile : compares Projectile_deep Projectile_eq. Proof. by_class Projectile_new Projectile_deq. Qed.
Theorem C60_ResourceCost : compares ResourceCost_deep ResourceCost_eq. Proof. by_class ResourceCost_new ResourceCost_deq. Qed.
Theorem C60_TrainLocation : compares TrainLocation_deep TrainLocation_eq. Proof. by_class TrainLocation_new TrainLocation_deq. Qed.
Theorem C60_Creatable : compares Creatable_deep Creatable_eq. Proof. by_class Creatable_new Creatable_deq. Qed.
Theorem C60_BuildingAnnex : compares BuildingAnnex_deep BuildingAnnex_eq. Proof. by_class BuildingAnnex_new BuildingAnnex_deq. Qed.
Theorem C60_Building : compares Building_deep Building_eq. Proof. by_class Building_new Building_deq. Qed.
Theorem C60_Unit : compares Unit_deep Unit_eq. Proof. by_class Unit_new Unit_deq. Qed.
Theorem C60_Civ : compares Civ_deep Civ_eq. Proof. by_class Civ_new Civ_deq. Qed.
Theorem C60_ResearchResourceCost : compares ResearchResourceCost_deep ResearchResourceCost_eq. Proof. by_class ResearchResourceCost_new ResearchResourceCost_deq. Qed.
Theorem C60_ResearchLocation : compares ResearchLocation_deep ResearchLocation_eq. Proof. by_class ResearchLocation_new ResearchLocation_deq. Qed.
Theorem C60_Tech : compares Tech_deep Tech_eq. Proof. by_class Tech_new Tech_deq. Qed.
Theorem C60_Common : compares Common_deep Common_eq. Proof. by_class Common_new Common_deq. Qed.
Theorem C60_TechTreeAge : compares TechTreeAge_deep TechTreeAge_eq. Proof. by_class TechTreeAge_new TechTreeAge_deq. Qed.
Theorem C60_BuildingConnection : compares BuildingConnection_deep BuildingConnection_eq. Proof. by_class BuildingConnection_new BuildingConnection_deq. Qed.
Theorem C60_UnitConnection : compares UnitConnection_deep UnitConnection_eq. Proof. by_class UnitConnection_new UnitConnection_deq. Qed.
Theorem C60_ResearchConnection : compares ResearchConnection_deep ResearchConnection_eq. Proof. by_class ResearchConnection_new ResearchConnection_deq. Qed.
Theorem C60_TechTree : compares TechTree_deep TechTree_eq. Proof. by_class TechTree_new TechTree_deq. Qed.
Theorem C60_DatFile : compares DatFile_deep DatFile_eq. Proof. by_class DatFile_new DatFile_deq. Qed.

(** Objects of two classes are different, whatever is in them (such as a [ResourceCost] and a
    [ResearchResourceCost], which have the same fields). *)
Theorem C60_classes : forall n h c c' fs fs' v w fp fq, own h (DObj c fs) v fp -> own h (DObj c' fs') w fq -> c <> c' -> py_eq (S n) h v w = Some false.
Proof.
  intros n h c c' fs fs' v w fp fq O P N. apply own_obj in O as (p & vs & _ & -> & Q & _). apply own_obj in P as (q & ws & _ & -> & R & _).
  cbn [py_eq]. destruct (Nat.eqb_spec p q) as [->|_]; [congruence|]. rewrite Q, R. destruct (String.eqb_spec c c') as [E|_]; [destruct (N E)|reflexivity].
Qed.
(** An object is equal to itself, even with a NaN in it. *)
Theorem C60_self : forall n h d v fp, own h d v fp -> d_none d = false -> (exists l, d = DList l) \/ (exists c fs, d = DObj c fs) -> py_eq (S n) h v v = Some true.
Proof.
  intros n h d v fp O _ [[l ->]|(c & fs & ->)]; [apply own_list in O as (q & ? & ? & -> & _)|apply own_obj in O as (q & ? & ? & -> & _)]; cbn [py_eq]; rewrite Nat.eqb_refl; reflexivity.
Qed.
(** Where Py.v says what [==] gives in an expression of the source text, it is this. *)
Lemma str_compare_is a b : holds CEq (Some (str_compare a b)) = str_eq a b.
Proof.
  apply eq_true_iff_eq. rewrite str_eq_iff, <- str_compare_eq. destruct (str_compare a b); cbn [holds]; split; congruence.
Qed.
Theorem C60_expressions : forall call n h h' v w b, Py.compare call CEq v w h = Ret (PBool b, h') -> py_eq (S n) h v w = Some b /\ h' = h.
Proof.
  intros call n h h' v w b E. unfold Py.compare in E.
  destruct (as_number v) as [a|] eqn:V, (as_number w) as [c|] eqn:W; [| | |destruct (as_str v) as [s|] eqn:SV, (as_str w) as [t|] eqn:SW; try discriminate E];
    unfold mret in E; injection E as <- <-; (split; [|reflexivity]).
  - destruct v; try discriminate V; cbn [py_eq]; rewrite V, W; reflexivity.
  - destruct v; try discriminate V; cbn [py_eq]; rewrite V, W; reflexivity.
  - destruct w; try discriminate W; destruct v; try discriminate V; reflexivity.
  - destruct v; try discriminate SV. destruct w; try discriminate SW. injection SV as ->. injection SW as ->. exact (f_equal Some (eq_sym (str_compare_is s t))).
Qed.

(** ** Loaded files *)
(** Two files are loaded, one after the other; then [dat1 == dat2]. *)
Theorem C60_two_loads : forall n h1 data1 data2 c1 c2 i1 i2 v1 v2 h2 h3 x1 x2, (18 <= n)%nat -> from_bytes data1 = Ok x1 -> from_bytes data2 = Ok x2 ->
  user_load n h1 data1 c1 i1 = Ret (v1, h2) -> user_load n h2 data2 c2 i2 = Ret (v2, h3) -> py_eq n h3 v1 v2 = Some (DatFile_eq x1 x2).
Proof.
  intros n h1 data1 data2 c1 c2 i1 i2 v1 v2 h2 h3 x1 x2 N B1 B2 E1 E2. pose proof (C49_DatFile n h1 data1 c1 i1 N) as H1. rewrite B1 in H1.
  pose proof (C49_DatFile n h2 data2 c2 i2 N) as H2. rewrite B2 in H2.
  destruct H1 as (w1 & k1 & F1 & L1 & f1 & O1 & N1 & R1). rewrite E1 in F1. injection F1 as <- <-. destruct H2 as (w2 & k2 & F2 & L2 & f2 & O2 & N2 & R2). rewrite E2 in F2. injection F2 as <- <-.
  assert (O1' : own h3 (DatFile_deep x1) v1 f1) by (apply (own_later h2 h3); assumption).
  eapply C60_DatFile; [lia|exact O1'|exact O2|]. intros q I J. specialize (R1 q I). specialize (R2 q J). lia.
Qed.
(** In the words of the files: they are equal iff neither has a NaN and they agree in everything but the
    signs of zeros. *)
Theorem C60_meaning : forall n h1 data1 data2 c1 c2 i1 i2 v1 v2 h2 h3 x1 x2, (18 <= n)%nat -> from_bytes data1 = Ok x1 -> from_bytes data2 = Ok x2 ->
  user_load n h1 data1 c1 i1 = Ret (v1, h2) -> user_load n h2 data2 c2 i2 = Ret (v2, h3) ->
  (py_eq n h3 v1 v2 = Some true <-> no_nan x1 /\ no_nan x2 /\ DatFile_floats plus_zero x1 = DatFile_floats plus_zero x2) /\
  (py_eq n h3 v1 v2 = Some true \/ py_eq n h3 v1 v2 = Some false).
Proof.
  intros n h1 data1 data2 c1 c2 i1 i2 v1 v2 h2 h3 x1 x2 N B1 B2 E1 E2. rewrite (C60_two_loads n h1 data1 data2 c1 c2 i1 i2 v1 v2 h2 h3 x1 x2 N B1 B2 E1 E2), <- C45_equal.
  split; [split; congruence|]. destruct (DatFile_eq x1 x2); auto.
Qed.
(** The same data, loaded twice: two different objects; they are equal iff there is no NaN. *)
Theorem C60_same_data : forall n h1 data c1 c2 i1 i2 v1 v2 h2 h3 x, (18 <= n)%nat -> from_bytes data = Ok x ->
  user_load n h1 data c1 i1 = Ret (v1, h2) -> user_load n h2 data c2 i2 = Ret (v2, h3) -> v1 <> v2 /\ (py_eq n h3 v1 v2 = Some true <-> no_nan x).
Proof.
  intros n h1 data c1 c2 i1 i2 v1 v2 h2 h3 x N B E1 E2. split.
  - pose proof (C49_DatFile n h1 data c1 i1 N) as H1. pose proof (C49_DatFile n h2 data c2 i2 N) as H2. rewrite B in H1, H2.
    destruct H1 as (w1 & k1 & F1 & _ & f1 & O1 & _ & R1). rewrite E1 in F1. injection F1 as <- <-. destruct H2 as (w2 & k2 & F2 & _ & f2 & O2 & _ & R2). rewrite E2 in F2. injection F2 as <- <-.
    intros <-. unfold DatFile_deep in O1, O2. apply own_obj in O1 as (p & ? & ? & -> & _ & -> & _). apply own_obj in O2 as (q & ? & ? & E & _ & -> & _). injection E as <-.
    specialize (R1 p (or_introl eq_refl)). specialize (R2 p (or_introl eq_refl)). lia.
  - destruct (C60_meaning n h1 data data c1 c2 i1 i2 v1 v2 h2 h3 x x N B B E1 E2) as [-> _]. tauto.
Qed.
(** Two files that were read without loss and without rest, without negative zeros: if the objects are
    equal the files were the same bytes. *)
Theorem C60_same_bytes : forall n h1 data1 data2 c1 c2 i1 i2 v1 v2 h2 h3 x1 x2 k1 k2, (18 <= n)%nat ->
  DatFile_from_bytes (new_handler data1) = Ok (x1, k1) -> DatFile_from_bytes (new_handler data2) = Ok (x2, k2) ->
  h_losses k1 = [] -> h_offset k1 = List.length data1 -> h_losses k2 = [] -> h_offset k2 = List.length data2 -> no_negative_zero x1 -> no_negative_zero x2 ->
  user_load n h1 data1 c1 i1 = Ret (v1, h2) -> user_load n h2 data2 c2 i2 = Ret (v2, h3) -> py_eq n h3 v1 v2 = Some true -> data1 = data2.
Proof.
  intros n h1 data1 data2 c1 c2 i1 i2 v1 v2 h2 h3 x1 x2 k1 k2 N D1 D2 L1 O1 L2 O2 Z1 Z2 E1 E2 E.
  assert (B1 : from_bytes data1 = Ok x1) by (unfold from_bytes; rewrite D1; reflexivity). assert (B2 : from_bytes data2 = Ok x2) by (unfold from_bytes; rewrite D2; reflexivity).
  rewrite (C60_two_loads n h1 data1 data2 c1 c2 i1 i2 v1 v2 h2 h3 x1 x2 N B1 B2 E1 E2) in E. injection E as E.
  apply (C45_bytes data1 data2 x1 x2 k1 k2 D1 D2 L1 O1 L2 O2 Z1 Z2 E).
Qed.
(** Load, save, load what was saved: equal to the first iff there is no NaN. *)
Theorem C60_reload : forall n h data c1 i1 c2 i2 v h1 x, (20 <= n)%nat -> from_bytes data = Ok x -> user_load n h data c1 i1 = Ret (v, h1) ->
  exists b h2 w h3, user_save_file n h1 v = Ret (PBytes b, h2) /\ user_load n h2 b c2 i2 = Ret (w, h3) /\ (py_eq n h3 v w = Some true <-> no_nan x).
Proof.
  intros n h data c1 i1 c2 i2 v h1 x N B E. destruct (C52_load_save n h data c1 i1 v h1 N E) as (b & h2 & x' & hd & S1 & L2 & D & FB & _).
  assert (x' = x) by (unfold from_bytes in B; rewrite D in B; congruence). subst x'.
  pose proof (C49_DatFile n h data c1 i1 ltac:(lia)) as H1. rewrite B in H1. destruct H1 as (v0 & k0 & E0 & L1 & fp & O & _ & R). rewrite E in E0. injection E0 as <- <-.
  pose proof (C49_DatFile n h2 b c2 i2 ltac:(lia)) as H2. rewrite FB in H2. destruct H2 as (w & h3 & E2 & L3 & fq & P & _ & R2).
  exists b, h2, w, h3. split; [exact S1|]. split; [exact E2|].
  assert (X : py_eq n h3 v w = Some (DatFile_eq x x)).
  { eapply C60_DatFile; [lia|apply (own_later h1 h3); [apply (later_trans _ _ _ L2 L3)|exact O]|exact P|]. intros q I J. specialize (R q I). specialize (R2 q J).
    assert (Q : (List.length h1 <= List.length h2)%nat); [|lia]. destruct (le_lt_dec (List.length h1) (List.length h2)) as [Q|Q]; [exact Q|].
    destruct (nth_error h1 (List.length h2)) as [o|] eqn:X; [apply L2 in X; apply nth_lt in X; lia|apply nth_error_None in X; lia]. }
  rewrite X. split; [intros [= K]; apply C45_equal in K; tauto|]. intros NN. f_equal. apply C45_equal. tauto.
Qed.

(** Between files that share nothing [==] is symmetric and transitive. *)
Theorem C60_symmetric : forall n h x y v w fp fq, (9 <= n)%nat -> own h (DatFile_deep x) v fp -> own h (DatFile_deep y) w fq -> share_nothing fp fq ->
  py_eq n h v w = py_eq n h w v.
Proof.
  intros n h x y v w fp fq N O P A. rewrite (C60_DatFile n h x y v w fp fq N O P A), (C60_DatFile n h y x w v fq fp N P O (fun q I J => A q J I)). f_equal. apply C45_symmetric.
Qed.
Theorem C60_transitive : forall n h x y z u v w fp fq fr, (9 <= n)%nat -> own h (DatFile_deep x) u fp -> own h (DatFile_deep y) v fq -> own h (DatFile_deep z) w fr ->
  share_nothing fp fq -> share_nothing fq fr -> share_nothing fp fr -> py_eq n h u v = Some true -> py_eq n h v w = Some true -> py_eq n h u w = Some true.
Proof.
  intros n h x y z u v w fp fq fr N O P Q A B C. rewrite (C60_DatFile n h x y u v fp fq N O P A), (C60_DatFile n h y z v w fq fr N P Q B), (C60_DatFile n h x z u w fp fr N O Q C).
  intros [= E] [= F]. f_equal. apply (C45_transitive x y z E F).
Qed.

(** ** Parts of files *)
Fixpoint content_at (p : list hop) (d : deep) : option deep :=
  match p with [] => Some d | s :: p => match deep_hop d s with Some d => content_at p d | None => None end end.
(** Two paths of which none is the beginning of the other *)
Fixpoint diverge (p q : list hop) : Prop :=
  match p, q with s :: p, t :: q => s <> t \/ (s = t /\ diverge p q) | _, _ => False end.
Lemma concat_nth {A} (ll : list (list A)) i l : nth_error ll i = Some l -> incl l (List.concat ll).
Proof. intros E q I. apply in_concat. exists l. split; [apply (nth_error_In _ _ E)|exact I]. Qed.
Lemma nodup_nth {A} (ll : list (list A)) : NoDup (List.concat ll) -> forall i l, nth_error ll i = Some l -> NoDup l.
Proof.
  induction ll as [|a ll IH]; intros N [|i] l E; try discriminate E; cbn [List.concat nth_error] in *; apply nodup_app in N as (N1 & N2 & _); [injection E as <-; exact N1|apply (IH N2 i l E)].
Qed.
Lemma nodup_two {A} (ll : list (list A)) : NoDup (List.concat ll) -> forall i j a b, i <> j -> nth_error ll i = Some a -> nth_error ll j = Some b -> forall q, In q a -> In q b -> False.
Proof.
  induction ll as [|l ll IH]; intros N i j a b NE E F q I J; [destruct i; discriminate E|]. cbn [List.concat] in N. apply nodup_app in N as (N1 & N2 & D).
  destruct i as [|i], j as [|j]; cbn [nth_error] in *.
  - destruct NE. reflexivity.
  - injection E as <-. apply (D q I), (concat_nth _ _ _ F q J).
  - injection F as <-. apply (D q J), (concat_nth _ _ _ E q I).
  - apply (IH N2 i j a b ltac:(congruence) E F q I J).
Qed.
Lemma owns_nth h l vs fps : PyR.owns h l vs fps -> forall i d, nth_error l i = Some d -> exists w f, nth_error vs i = Some w /\ nth_error fps i = Some f /\ own h d w f.
Proof.
  intros O. induction O as [|d0 v f l vs fps H O IH]; intros [|i] d E; try discriminate E; cbn [nth_error] in *; [injection E as <-; eauto|apply (IH i d E)].
Qed.
Lemma ownf_nth h l vs fps : PyR.ownf h l vs fps -> forall a d, assoc a l = Some d -> exists i w f, nth_error (map fst l) i = Some a /\ assoc a vs = Some w /\ nth_error fps i = Some f /\ own h d w f.
Proof.
  intros O. induction O as [|x d0 v f l vs fps H O IH]; intros a d E; [discriminate E|]. cbn [assoc] in *. destruct (String.eqb_spec a x) as [->|_].
  - injection E as <-. exists 0%nat, v, f. auto.
  - destruct (IH a d E) as (i & w & g & A & B & C & D). exists (S i), w, g. auto.
Qed.
(** One step: where it leads, and which of the parts [fps] it is. *)
Lemma step_part h d v fp s d' : own h d v fp -> deep_hop d s = Some d' ->
  exists w f, hop_to h v s = Some w /\ own h d' w f /\ incl f fp /\ (NoDup fp -> NoDup f) /\
    (NoDup fp -> forall t e, s <> t -> deep_hop d t = Some e -> exists u g, hop_to h v t = Some u /\ own h e u g /\ NoDup g /\ incl g fp /\ share_nothing f g).
Proof.
  intros O E. destruct d; try discriminate E; destruct s as [a|i]; try discriminate E; cbn [deep_hop] in E.
  - apply own_list in O as (q & vs & fps & -> & Q & -> & O). destruct (owns_nth _ _ _ _ O _ _ E) as (w & f & W & F & P). exists w, f. cbn [hop_to]. rewrite Q.
    split; [exact W|]. split; [exact P|]. split; [apply incl_tl, (concat_nth _ _ _ F)|]. split; [intros N; inversion N; subst; eapply nodup_nth; eassumption|].
    intros N [t|j] e NE T; [discriminate T|]. cbn [deep_hop] in T. destruct (owns_nth _ _ _ _ O _ _ T) as (u & g & U & G & R). exists u, g. inversion N; subst.
    split; [exact U|]. split; [exact R|]. split; [eapply nodup_nth; eassumption|]. split; [apply incl_tl, (concat_nth _ _ _ G)|]. intros k. eapply nodup_two; [eassumption| |eassumption|eassumption]. congruence.
  - apply own_tuple in O as (vs & fps & -> & -> & O). destruct (owns_nth _ _ _ _ O _ _ E) as (w & f & W & F & P). exists w, f. cbn [hop_to].
    split; [exact W|]. split; [exact P|]. split; [apply (concat_nth _ _ _ F)|]. split; [intros N; eapply nodup_nth; eassumption|].
    intros N [t|j] e NE T; [discriminate T|]. cbn [deep_hop] in T. destruct (owns_nth _ _ _ _ O _ _ T) as (u & g & U & G & R). exists u, g.
    split; [exact U|]. split; [exact R|]. split; [eapply nodup_nth; eassumption|]. split; [apply (concat_nth _ _ _ G)|]. intros k. eapply nodup_two; [eassumption| |eassumption|eassumption]. congruence.
  - apply own_obj in O as (q & vs & fps & -> & Q & -> & O). destruct (ownf_nth _ _ _ _ O _ _ E) as (i & w & f & I & W & F & P). exists w, f. cbn [hop_to]. rewrite Q.
    split; [exact W|]. split; [exact P|]. split; [apply incl_tl, (concat_nth _ _ _ F)|]. split; [intros N; inversion N; subst; eapply nodup_nth; eassumption|].
    intros N [t|j] e NE T; [|discriminate T]. cbn [deep_hop] in T. destruct (ownf_nth _ _ _ _ O _ _ T) as (j & u & g & J & U & G & R). exists u, g. inversion N; subst.
    split; [exact U|]. split; [exact R|]. split; [eapply nodup_nth; eassumption|]. split; [apply incl_tl, (concat_nth _ _ _ G)|]. intros k. eapply nodup_two; [eassumption| |eassumption|eassumption]. congruence.
Qed.
Lemma one_part h p : forall d v fp d', own h d v fp -> content_at p d = Some d' -> exists w f, follow h v p = Some w /\ own h d' w f /\ incl f fp.
Proof.
  induction p as [|s p IH]; intros d v fp d' O E; cbn [content_at follow] in *.
  - injection E as <-. exists v, fp. split; [reflexivity|]. split; [exact O|apply incl_refl].
  - destruct (deep_hop d s) as [d1|] eqn:H; [|discriminate E]. destruct (step_part _ _ _ _ _ _ O H) as (w & f & -> & O1 & I1 & _).
    destruct (IH _ _ _ _ O1 E) as (w' & f' & F & O2 & I2). exists w', f'. split; [exact F|]. split; [exact O2|]. intros q I. apply I1, I2, I.
Qed.
Lemma two_parts h p1 : forall p2 d v fp d1 d2, own h d v fp -> NoDup fp -> diverge p1 p2 -> content_at p1 d = Some d1 -> content_at p2 d = Some d2 ->
  exists w1 f1 w2 f2, follow h v p1 = Some w1 /\ follow h v p2 = Some w2 /\ own h d1 w1 f1 /\ own h d2 w2 f2 /\ share_nothing f1 f2.
Proof.
  induction p1 as [|s p1 IH]; intros [|t p2] d v fp d1 d2 O N D E F; try contradiction D. cbn [content_at follow diverge] in *.
  destruct (deep_hop d s) as [c1|] eqn:H; [|discriminate E]. destruct (step_part _ _ _ _ _ _ O H) as (w & f & W & O1 & I1 & N1 & TWO). destruct D as [NE|[<- D]].
  - destruct (deep_hop d t) as [c2|] eqn:T; [|discriminate F]. destruct (TWO N t c2 NE T) as (u & g & U & O2 & N2 & I2 & SN). rewrite W, U.
    destruct (one_part h p1 _ _ _ _ O1 E) as (w1 & f1 & F1 & P1 & J1). destruct (one_part h p2 _ _ _ _ O2 F) as (w2 & f2 & F2 & P2 & J2).
    exists w1, f1, w2, f2. repeat (split; [assumption|]). intros q I J. apply (SN q); [apply J1, I|apply J2, J].
  - rewrite H in F. rewrite W. apply (IH p2 _ _ _ _ _ O1 (N1 N) D E F).
Qed.
(** Parts of one loaded file, at places none of which is in the other. *)
Theorem C60_parts : forall A (D : A -> deep) e, compares D e -> forall n h data content input_file v h' x p1 p2 a b, (18 <= n)%nat -> from_bytes data = Ok x ->
  user_load n h data content input_file = Ret (v, h') -> content_at p1 (DatFile_deep x) = Some (D a) -> content_at p2 (DatFile_deep x) = Some (D b) -> diverge p1 p2 ->
  exists w1 w2, follow h' v p1 = Some w1 /\ follow h' v p2 = Some w2 /\ py_eq n h' w1 w2 = Some (e a b).
Proof.
  intros A D e C n h data content input_file v h' x p1 p2 a b N B E P Q DV. pose proof (C49_DatFile n h data content input_file N) as H. rewrite B in H.
  destruct H as (v0 & h0 & E0 & _ & fp & O & ND & _). rewrite E in E0. injection E0 as <- <-.
  destruct (two_parts h' p1 p2 _ _ _ _ _ O ND DV P Q) as (w1 & f1 & w2 & f2 & F1 & F2 & O1 & O2 & SN). exists w1, w2. split; [exact F1|]. split; [exact F2|].
  apply (C n h' a b w1 w2 f1 f2 ltac:(lia) O1 O2 SN).
Qed.
(** Parts of two files, at any places. *)
Theorem C60_parts_of_two : forall A (D : A -> deep) e, compares D e -> forall n h1 data1 data2 c1 c2 i1 i2 v1 v2 h2 h3 x1 x2 p1 p2 a b, (18 <= n)%nat -> from_bytes data1 = Ok x1 -> from_bytes data2 = Ok x2 ->
  user_load n h1 data1 c1 i1 = Ret (v1, h2) -> user_load n h2 data2 c2 i2 = Ret (v2, h3) -> content_at p1 (DatFile_deep x1) = Some (D a) -> content_at p2 (DatFile_deep x2) = Some (D b) ->
  exists w1 w2, follow h3 v1 p1 = Some w1 /\ follow h3 v2 p2 = Some w2 /\ py_eq n h3 w1 w2 = Some (e a b).
Proof.
  intros A D e C n h1 data1 data2 c1 c2 i1 i2 v1 v2 h2 h3 x1 x2 p1 p2 a b N B1 B2 E1 E2 P Q. pose proof (C49_DatFile n h1 data1 c1 i1 N) as H1. rewrite B1 in H1.
  pose proof (C49_DatFile n h2 data2 c2 i2 N) as H2. rewrite B2 in H2.
  destruct H1 as (u1 & k1 & F1 & L1 & f1 & O1 & N1 & R1). rewrite E1 in F1. injection F1 as <- <-. destruct H2 as (u2 & k2 & F2 & L2 & f2 & O2 & N2 & R2). rewrite E2 in F2. injection F2 as <- <-.
  assert (O1' : own h3 (DatFile_deep x1) v1 f1) by (apply (own_later h2 h3); assumption).
  destruct (one_part h3 p1 _ _ _ _ O1' P) as (w1 & g1 & W1 & P1 & J1). destruct (one_part h3 p2 _ _ _ _ O2 Q) as (w2 & g2 & W2 & P2 & J2).
  exists w1, w2. split; [exact W1|]. split; [exact W2|]. apply (C n h3 a b w1 w2 g1 g2 ltac:(lia) P1 P2). intros q I J. specialize (R1 q (J1 q I)). specialize (R2 q (J2 q J)). lia.
Qed.
(** The units of two civilisations of one file: [data.civs[i].units[k] == data.civs[j].units[l]]. *)
Theorem C60_units : forall n h data content input_file v h' x i j k l c d u w, (18 <= n)%nat -> from_bytes data = Ok x -> user_load n h data content input_file = Ret (v, h') ->
  nth_error (DatFile_civs x) i = Some c -> nth_error (DatFile_civs x) j = Some d -> nth_error (Civ_units c) k = Some (Some u) -> nth_error (Civ_units d) l = Some (Some w) -> (i, k) <> (j, l) ->
  exists v1 v2, follow h' v [Attr "civs"; Item i; Attr "units"; Item k]%string = Some v1 /\ follow h' v [Attr "civs"; Item j; Attr "units"; Item l]%string = Some v2 /\
    py_eq n h' v1 v2 = Some (Unit_eq u w).
Proof.
  intros n h data content input_file v h' x i j k l c d u w N B E C D U W NE.
  assert (X : forall i k c u, nth_error (DatFile_civs x) i = Some c -> nth_error (Civ_units c) k = Some (Some u) -> content_at [Attr "civs"; Item i; Attr "units"; Item k]%string (DatFile_deep x) = Some (Unit_deep u)).
  { clear. intros i k c u C U. unfold DatFile_deep. cbn [content_at deep_hop assoc String.eqb Ascii.eqb Bool.eqb]. rewrite nth_error_map, C. cbn [option_map].
    unfold Civ_deep. cbn [deep_hop assoc String.eqb Ascii.eqb Bool.eqb]. rewrite nth_error_map, U. reflexivity. }
  apply (C60_parts _ Unit_deep Unit_eq C60_Unit n h data content input_file v h' x _ _ u w N B E (X _ _ _ _ C U) (X _ _ _ _ D W)).
  cbn [diverge]. right. split; [reflexivity|]. destruct (Nat.eq_dec i j) as [<-|IJ]; [|left; congruence]. right. split; [reflexivity|]. right. split; [reflexivity|]. left. congruence.
Qed.

(** ** A file that was changed *)
(** Two files are loaded, the second is changed in place by any program of C55, then [dat1 == dat2]; in
    particular a file against another load of it that was changed: what the comparison shows is the change. *)
Theorem C60_changed : forall n h1 data1 data2 c1 c2 i1 i2 v1 v2 h2 h3 x1 x2 cs change z, (20 <= n)%nat -> from_bytes data1 = Ok x1 -> from_bytes data2 = Ok x2 ->
  user_load n h1 data1 c1 i1 = Ret (v1, h2) -> user_load n h2 data2 c2 i2 = Ret (v2, h3) -> all_scoped "data" cs -> carries_out cs change -> change x2 = Ok z ->
  exists en h4, Py.block source (call source n) "__main__" (texts "data" cs) [("data"%string, v2)] h3 = Ret ((en, None), h4) /\ py_eq n h4 v1 v2 = Some (DatFile_eq x1 z).
Proof.
  intros n h1 data1 data2 c1 c2 i1 i2 v1 v2 h2 h3 x1 x2 cs change z N B1 B2 E1 E2 SC CO CH. pose proof (C49_DatFile n h1 data1 c1 i1 ltac:(lia)) as H1. rewrite B1 in H1.
  pose proof (C49_DatFile n h2 data2 c2 i2 ltac:(lia)) as H2. rewrite B2 in H2.
  destruct H1 as (w1 & k1 & F1 & L1 & f1 & O1 & N1 & R1). rewrite E1 in F1. injection F1 as <- <-. destruct H2 as (w2 & k2 & F2 & L2 & f2 & O2 & N2 & R2). rewrite E2 in F2. injection F2 as <- <-.
  assert (O1' : own h3 (DatFile_deep x1) v1 f1) by (apply (own_later h2 h3); assumption).
  assert (DO : does_all cs (DatFile_deep x2) = Some (Ok (DatFile_deep z))) by (rewrite (CO x2), CH; reflexivity).
  assert (LE : (List.length h2 <= List.length h3)%nat).
  { destruct (le_lt_dec (List.length h2) (List.length h3)) as [Q|Q]; [exact Q|]. destruct (nth_error h2 (List.length h3)) as [o|] eqn:X; [apply L2 in X; apply nth_lt in X; lia|apply nth_error_None in X; lia]. }
  destruct n as [|n]; [lia|].
  pose proof (changes_run n cs "data" _ v2 f2 [("data"%string, v2)] h3 SC O2 N2 eq_refl (data_clear v2)) as X. rewrite DO in X. cbn [carried] in X.
  destruct X as (en & h4 & fp' & E & _ & (G1 & G2 & G3 & G4) & L). exists en, h4. split; [exact E|].
  eapply C60_DatFile; [lia|apply (own_keeps h3); [|exact O1']|exact G1|].
  - intros i I. specialize (R1 i I). apply G4; [lia|]. intros J. specialize (R2 i J). lia.
  - intros q I J. specialize (R1 q I). destruct (G3 q J) as [K|K]; [specialize (R2 q K); lia|lia].
Qed.

(** ** A file and its copy *)
(** The file is copied and the copy changed: [data == y] compares the records before and after.
    [no_nan]: [copy.deepcopy] keeps a float object, so that a NaN would be equal to its copy. *)
Theorem C60_file_and_copy : forall n h0 h x v y cs change z, (20 <= n)%nat -> (List.length h0 <= List.length h)%nat -> fresh_tree h0 h (DatFile_deep x) v ->
  y <> "data"%string -> special y = false -> all_scoped y cs -> ~ In "data"%string (flat_map vars cs) -> carries_out cs change -> change x = Ok z -> no_nan x ->
  exists en h' w, Py.block source (call source n) "__main__" (copy_stmt y "data" [] :: texts y cs) [("data"%string, v)] h = Ret ((en, None), h') /\
    assoc "data"%string en = Some v /\ assoc y en = Some w /\ py_eq n h' v w = Some (DatFile_eq x z).
Proof.
  intros n h0 h x v y cs change z N LE FT YD SY SC DV CO CH _. destruct n as [|n]; [lia|].
  assert (DO : does_all cs (DatFile_deep x) = Some (Ok (DatFile_deep z))) by (rewrite (CO x), CH; reflexivity).
  destruct (copied n h0 h (DatFile_deep x) v "data" y [] (DatFile_deep x) FT eq_refl (DatFile_copyable x) (conj (fun E => YD (eq_sym E)) (conj eq_refl SY))) as (fp & w & t & fpw & O & ND & R & OW & NW & GW & E).
  pose proof (changes_run n cs y _ w fpw [(y, w); ("data"%string, v)] (h ++ t) SC OW NW ltac:(cbn [assoc]; rewrite String.eqb_refl; reflexivity) (two_clear "data" v y w eq_refl SY)) as X. rewrite DO in X. cbn [carried] in X.
  destruct X as (en & h' & fp' & E' & A' & (R1 & R2 & R3 & R4) & L). rewrite app_length in L. exists en, h', w. rewrite E. split; [exact E'|].
  assert (KE : keeps fp h h').
  { intros i I. specialize (R i I). rewrite R4; [apply nth_error_app1; lia|rewrite app_length; lia|]. intros J. specialize (GW i J). lia. }
  split; [|split].
  - rewrite A' by exact DV. cbn [assoc]. destruct (String.eqb_spec "data" y) as [X|_]; [destruct (YD (eq_sym X))|reflexivity].
  - rewrite A'; [cbn [assoc]; rewrite String.eqb_refl; reflexivity|]. clear - SC. induction cs as [|c cs IH]; [intros []|]. destruct SC as [S1 S2]. cbn [flat_map]. intros I. apply in_app_or in I as [I|I]; [apply (scoped_free _ _ S1 I)|apply (IH S2 I)].
  - eapply C60_DatFile; [lia|apply (own_keeps h); eassumption|exact R1|]. intros q I J. specialize (R q I). destruct (R3 q J) as [K|K]; [specialize (GW q K); lia|rewrite app_length in K; lia].
Qed.
(** The copy alone is equal. *)
Theorem C60_copy : forall n h0 h x v y, (20 <= n)%nat -> (List.length h0 <= List.length h)%nat -> fresh_tree h0 h (DatFile_deep x) v ->
  y <> "data"%string -> special y = false -> no_nan x ->
  exists en h' w, Py.block source (call source n) "__main__" [copy_stmt y "data" []] [("data"%string, v)] h = Ret ((en, None), h') /\
    assoc y en = Some w /\ w <> v /\ py_eq n h' v w = Some true.
Proof.
  intros n h0 h x v y N LE FT YD SY NN. destruct n as [|n]; [lia|].
  destruct (copied n h0 h (DatFile_deep x) v "data" y [] (DatFile_deep x) FT eq_refl (DatFile_copyable x) (conj (fun E => YD (eq_sym E)) (conj eq_refl SY))) as (fp & w & t & fpw & O & ND & R & OW & NW & GW & E).
  exists [(y, w); ("data"%string, v)], (h ++ t), w. split; [rewrite E; reflexivity|]. split; [cbn [assoc]; rewrite String.eqb_refl; reflexivity|].
  assert (AP : share_nothing fp fpw) by (intros q I J; specialize (R q I); specialize (GW q J); lia). split.
  - intros ->. unfold DatFile_deep in O, OW. apply own_obj in O as (p & ? & ? & -> & _ & -> & _). apply own_obj in OW as (q & ? & ? & Q & _ & -> & _). injection Q as <-. apply (AP p); left; reflexivity.
  - rewrite (C60_DatFile (S n) (h ++ t) x x v w fp fpw ltac:(lia)); [f_equal; apply C45_equal; tauto| |exact OW|exact AP]. apply (own_later h (h ++ t)); [apply later_app|exact O].
Qed.

(** ** Cases *)
(** A file of every version, loaded twice, gives objects that are equal or not as C45 says; the 8.8 file
    has no NaN, and its two objects are equal. *)
Example C60_case : forall h, exists data v1 h2 v2 h3, to_bytes (sample VER_88) = Ok data /\ user_load 18 h data PNone PNone = Ret (v1, h2) /\
  user_load 18 h2 data PNone PNone = Ret (v2, h3) /\ v1 <> v2 /\ py_eq 18 h3 v1 v2 = Some true.
Proof.
  intros h. destruct (C01_round_trip _ (sample_wf VER_88 ltac:(discriminate))) as (data & TB & FB & _). exists data.
  pose proof (C49_DatFile 18 h data PNone PNone (le_n _)) as H1. rewrite FB in H1. destruct H1 as (v1 & h2 & E1 & _).
  pose proof (C49_DatFile 18 h2 data PNone PNone (le_n _)) as H2. rewrite FB in H2. destruct H2 as (v2 & h3 & E2 & _).
  exists v1, h2, v2, h3. split; [exact TB|]. split; [exact E1|]. split; [exact E2|].
  destruct (C60_same_data 18 h data PNone PNone PNone PNone v1 v2 h2 h3 _ (le_n _) FB E1 E2) as [NE EQ]. split; [exact NE|]. apply EQ, case_numbers.
Qed.
(** A file with a NaN, loaded twice. *)
Example C60_case_nan : forall h, exists data v1 h2 v2 h3, to_bytes (with_min_x quiet_nan (sample VER_88)) = Ok data /\ user_load 18 h data PNone PNone = Ret (v1, h2) /\
  user_load 18 h2 data PNone PNone = Ret (v2, h3) /\ py_eq 18 h3 v1 v2 = Some false /\ py_eq 18 h3 v1 v1 = Some true.
Proof.
  intros h. destruct C45_case_nan as (data & x & TB & FB & Q). exists data.
  pose proof (C49_DatFile 18 h data PNone PNone (le_n _)) as H1. rewrite FB in H1. destruct H1 as (v1 & h2 & E1 & _ & fp & O & _).
  pose proof (C49_DatFile 18 h2 data PNone PNone (le_n _)) as H2. rewrite FB in H2. destruct H2 as (v2 & h3 & E2 & L2 & _).
  exists v1, h2, v2, h3. split; [exact TB|]. split; [exact E1|]. split; [exact E2|]. split.
  - rewrite (C60_two_loads 18 h data data PNone PNone PNone PNone v1 v2 h2 h3 x x (le_n _) FB FB E1 E2), Q. reflexivity.
  - apply (C60_self 17 h3 (DatFile_deep x) v1 fp); [|reflexivity|right; unfold DatFile_deep; eexists _, _; reflexivity]. apply (own_later h2 h3); [exact L2|exact O].
Qed.
(** The 8.8 file, loaded twice; to the second an effect command is added: not equal any more. *)
Definition a_command : EffectCommand := {| EffectCommand_type := 4; EffectCommand_a := 1; EffectCommand_b := -1; EffectCommand_c := 5; EffectCommand_d := f64_zero |}.
Example C60_case_changed : forall h, exists data v1 h2 v2 h3 en h4, to_bytes (sample VER_88) = Ok data /\ user_load 20 h data PNone PNone = Ret (v1, h2) /\
  user_load 20 h2 data PNone PNone = Ret (v2, h3) /\
  Py.block source (call source 20) "__main__" (texts "data" (command_changes 0 a_command)) [("data"%string, v2)] h3 = Ret ((en, None), h4) /\
  py_eq 20 h3 v1 v2 = Some true /\ py_eq 20 h4 v1 v2 = Some false.
Proof.
  intros h. destruct (C01_round_trip _ (sample_wf VER_88 ltac:(discriminate))) as (data & TB & FB & _). exists data.
  assert (N : (18 <= 20)%nat) by lia.
  pose proof (C49_DatFile 20 h data PNone PNone N) as H1. rewrite FB in H1. destruct H1 as (v1 & h2 & E1 & _).
  pose proof (C49_DatFile 20 h2 data PNone PNone N) as H2. rewrite FB in H2. destruct H2 as (v2 & h3 & E2 & _).
  assert (X : exists z, add_command 0 a_command (sample VER_88) = Ok z /\ DatFile_eq (sample VER_88) z = false).
  { eexists. split; [reflexivity|]. vm_compute. reflexivity. }
  destruct X as (z & CH & NE). destruct (C58_new_command 0 a_command) as (CO & _ & SC).
  destruct (C60_changed 20 h data data PNone PNone PNone PNone v1 v2 h2 h3 _ _ _ _ z (le_n _) FB FB E1 E2 SC CO CH) as (en & h4 & E & Q).
  exists v1, h2, v2, h3, en, h4. split; [exact TB|]. split; [exact E1|]. split; [exact E2|]. split; [exact E|]. split.
  - destruct (C60_same_data 20 h data PNone PNone PNone PNone v1 v2 h2 h3 _ N FB E1 E2) as [_ EQ]. apply EQ, case_numbers.
  - rewrite Q, NE. reflexivity.
Qed.
(** A file with the same unit at two places (C58_case_copies), loaded: two objects, equal. *)
Example C60_case_units : forall h, exists data v h' v1 v2, to_bytes copied_file = Ok data /\ user_load 18 h data PNone PNone = Ret (v, h') /\
  follow h' v [Attr "civs"; Item 0; Attr "units"; Item 0]%string = Some v1 /\ follow h' v [Attr "civs"; Item 0; Attr "units"; Item 434]%string = Some v2 /\
  v1 <> v2 /\ py_eq 18 h' v1 v2 = Some true.
Proof.
  intros h. destruct (C01_round_trip _ copied_wf) as (data & TB & FB & _). exists data.
  pose proof (C49_DatFile 18 h data PNone PNone (le_n _)) as H. rewrite FB in H. destruct H as (v & h' & E & _).
  destruct (C60_units 18 h data PNone PNone v h' copied_file 0 0 0 434 _ _ _ _ (le_n _) FB E eq_refl eq_refl eq_refl eq_refl ltac:(discriminate)) as (v1 & v2 & F1 & F2 & Q).
  exists v, h', v1, v2. split; [exact TB|]. split; [exact E|]. split; [exact F1|]. split; [exact F2|]. split.
  - intros <-. assert (X : exists q, v1 = PRef q).
    { pose proof (C49_DatFile 18 h data PNone PNone (le_n _)) as H. rewrite FB in H. destruct H as (v' & k & E' & _ & fp & O & _). rewrite E in E'. injection E' as <- <-.
      destruct (one_part h' [Attr "civs"; Item 0; Attr "units"; Item 0]%string _ _ _ _ O eq_refl) as (w & f & F & P & _). rewrite F1 in F. injection F as <-.
      cbn [emb_opt] in P. apply own_obj in P as (q & ? & ? & -> & _). exists q. reflexivity. }
    destruct X as (q & ->). pose proof (C50_one_path 18 h data PNone PNone v h' (le_n _) E _ _ q F1 F2) as K. discriminate K.
  - rewrite Q. vm_compute. reflexivity.
Qed.
(** Values of other kinds: 1 == True, 0 == 0.0, "" is not 0, None only with None, a list is not a tuple,
    lists of different length, two objects of classes with the same fields. *)
Definition zero_cost (c : string) : obj := OInst c [("type", PInt 0); ("amount", PInt 0); ("flag", PInt 0)]%string.
Example C60_case_values : let h := [OList [PInt 1]; OList [PInt 1; PInt 2]; OList [PFloat (f64_of_bits 4607182418800017408)]; zero_cost "ResourceCost"; zero_cost "ResearchResourceCost"; zero_cost "ResourceCost"] in
  py_eq 3 h (PInt 1) (PBool true) = Some true /\ py_eq 3 h (PInt 0) (PFloat negative_zero) = Some true /\ py_eq 3 h (PInt 0) (PStr []) = Some false /\
  py_eq 3 h PNone (PInt 0) = Some false /\ py_eq 3 h PNone PNone = Some true /\ py_eq 3 h (PRef 0) (PTuple [PInt 1]) = Some false /\
  py_eq 3 h (PRef 0) (PRef 1) = Some false /\ py_eq 3 h (PRef 0) (PRef 2) = Some true /\ py_eq 3 h (PRef 3) (PRef 4) = Some false /\ py_eq 3 h (PRef 3) (PRef 5) = Some true /\
  py_eq 1 h (PRef 3) (PRef 5) = None.
Proof. vm_compute. repeat split. Qed.

Definition all_of_this_file := (C60_classes, C60_self, C60_expressions, C60_two_loads, C60_meaning, C60_same_data, C60_same_bytes, C60_reload, C60_parts, C60_parts_of_two, C60_units, C60_symmetric, C60_transitive, C60_changed, C60_file_and_copy, C60_copy,
  C60_SoundItem, C60_Sound, C60_PlayerColour, C60_EffectCommand, C60_Effect, C60_TerrainPassGraphic, C60_TerrainRestriction, C60_GraphicDelta, C60_GraphicAngleSound, C60_Graphic, C60_FrameData, C60_Terrain, C60_TileSize, C60_TerrainBlock, C60_MapUnit, C60_MapTerrain, C60_MapLand, C60_MapElevation, C60_MapInfo, C60_RandomMaps, C60_Task, C60_UnitHeaders, C60_ResourceStorage, C60_DamageGraphic, C60_DeadFish, C60_Bird, C60_AttackOrArmor, C60_Type50, C60_Projectile, C60_ResourceCost, C60_TrainLocation, C60_Creatable, C60_BuildingAnnex, C60_Building, C60_Unit, C60_Civ, C60_ResearchResourceCost, C60_ResearchLocation, C60_Tech, C60_Common, C60_TechTreeAge, C60_BuildingConnection, C60_UnitConnection, C60_ResearchConnection, C60_TechTree, C60_DatFile).
Print Assumptions all_of_this_file.
