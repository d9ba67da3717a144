(** * C49-C52: the source text itself, run on Python objects, loads what the typed model loads; what
    it builds; and loading, changing one attribute and saving.

    [Py.v] says how Python runs the subset of the language the library is written in, on a heap of
    mutable objects; [Source.v] is the text of the library in that language, printed by
    tools/gen_src.py from /repo.  Here the methods of that text are run, in any heap. *)
From Verif Require Import Base PyInt PyFloat PyStr PyStruct DataTypes Versions Common Py Source PyRep PyPure PyPureSim PyW PyWE Deep PyWC PyWS PyWD.
From Verif Require Import M_Sound M_PlayerColour M_Effect M_TerrainRestriction M_Graphic
  M_TerrainBlock M_RandomMaps M_Task M_UnitHeaders M_Unit M_Civ M_Tech M_TechTree M_DatFile.
From Verif Require Import Spec Shape Update Sample Props_Dat Props_Source.
From Verif Require Import PyR PyRE PyRH PyRC PyRT PyRK1 PyRK2 PyRK3 PyRK4 PyRU PyRV PyRD PyTree PyLoad P_DatFile.
From Coq Require Import String Ascii Lia.
Open Scope Z_scope.
Local Open Scope list_scope.

(** ** What the user does, and sees *)
(** datfile.py:49-50, the last two statements of [DatFile.parse]: the file has been read and
    decompressed (FS.v) into [data]; [n] frames are left on the stack. *)
Definition user_load (n : nat) (h : heap) (data : bytes) (content input_file : val) : outcome (val * heap) :=
  run n "datfile" (skipn 2 (f_body src_DatFile_parse))
    [("data", PBytes data); ("content", content); ("cls", PClass "DatFile"); ("input_file", input_file)]%string h.
(** [c.a(content, ...)] where [content] is the [ByteHandler] at [l] *)
Definition user_read (n : nat) (h : heap) (c a : string) (l : nat) (args : list (string * val)) : outcome (val * heap) :=
  eval source (call source n) "__main__" (("content"%string, PRef l) :: args)
    (ECall (EAttr (EName c) a) (EName "content" :: map (fun x => EName (fst x)) args)) h.
(** [dat.p.a = value] *)
Definition user_set (n : nat) (h : heap) (dat : val) (p : list hop) (a : string) (value : val) : outcome (val * heap) :=
  run n "__main__" [SSetAttr (path_text (EName "dat") p) a (EName "value")] [("dat", dat); ("value", value)]%string h.

(** [v] is an object graph with the contents [d], made of objects of [h'] that were not in [h] and
    each of which is referred to once. *)
Definition fresh_tree (h h' : heap) (d : deep) (v : val) : Prop :=
  exists fp, own h' d v fp /\ NoDup fp /\ forall q, In q fp -> (List.length h <= q < List.length h')%nat.

(** The same, and in a file of version [w] each [invulnerability_level] is the int 0 before 8.4 and a
    float from 8.4 on (PyR.v, [level]). *)
Definition fresh_tree_of (w : Version) (h h' : heap) (d : deep) (v : val) : Prop :=
  exists fp, @own (time_of w) h' d v fp /\ NoDup fp /\ forall q, In q fp -> (List.length h <= q < List.length h')%nat.
Lemma fresh_of w h h' d v : fresh_tree_of w h h' d v -> fresh_tree h h' d v.
Proof. intros (fp & O & N & F). exists fp. split; [apply own_any in O; exact O|]. split; assumption. Qed.

(** ** C49: loading *)
Theorem C49_exact : forall n h data content input_file, (18 <= n)%nat ->
  match from_bytes data with
  | Ok x => exists v h' w, user_load n h data content input_file = Ret (v, h') /\ later h h' /\
      version_lookup (DatFile_version x) = Ok w /\ fresh_tree_of w h h' (DatFile_deep x) v
  | Err e => user_load n h data content input_file = Raise (Std e)
  end.
Proof.
  intros n h data content input_file N. unfold user_load. cbn [skipn f_body src_DatFile_parse].
  rewrite run_assign. destruct n as [|[|n]]; [lia..|].
  erewrite mbind_ret.
  2:{ rewrite eval_call. erewrite mbind_ret; [|apply p_global; [reflexivity|look]].
      unfold argv at 1. erewrite (mbind_ret (mbind (eval source _ _ _ (ECall (EName "memoryview") _)) _)); [|].
      2:{ erewrite mbind_ret; [reflexivity|]. erewrite eval_call_pure; [|apply p_global; [reflexivity|look]|apply pa_pos; [reflexivity|apply p_name; reflexivity|apply pa_nil]]. reflexivity. }
      cbn [fst snd]. apply handler_new. }
  rewrite run_return. set (hd := new_handler data).
  assert (A : at_ (List.length h) hd (h ++ [hobj hd])) by (split; [apply nth_new|exact I]).
  erewrite eval_call_pure; [|eapply p_class_attr_local; [reflexivity|look|reflexivity|apply DatFile_m|right; reflexivity]|apply pa_pos; [reflexivity|apply p_name; reflexivity|apply pa_nil]].
  pose proof (DatFile_in (S (S n)) _ hd _ N A) as R. unfold ok_in in R. unfold from_bytes. fold hd. pose proof (DatFile_reads hd) as V. destruct (DatFile_from_bytes hd) as [[x hd']|e]; [|exact R].
  specialize (V _ _ eq_refl). destruct V as (_ & _ & V & _).
  destruct R as (v & h' & E & A' & T & fp & O & Se). exists v, h', (h_version hd'). split; [exact E|]. destruct T as [T1 T2]. rewrite app_length in *. cbn [List.length] in *. split; [|split].
  - intros i o I. rewrite T2; [rewrite nth_error_app1; [exact I|apply (nth_lt _ _ _ I)]| |]; pose proof (nth_lt _ _ _ I); lia.
  - rewrite version_lookup_spec, V. reflexivity.
  - exists fp. split; [exact O|]. split; [apply Se|]. intros q I. destruct Se as [_ Se]. specialize (Se q I). lia.
Qed.
Theorem C49_DatFile : forall n h data content input_file, (18 <= n)%nat ->
  match from_bytes data with
  | Ok x => exists v h', user_load n h data content input_file = Ret (v, h') /\ later h h' /\ fresh_tree h h' (DatFile_deep x) v
  | Err e => user_load n h data content input_file = Raise (Std e)
  end.
Proof.
  intros n h data content input_file N. pose proof (C49_exact n h data content input_file N) as H. destruct (from_bytes data) as [x|e]; [|exact H].
  destruct H as (v & h' & w & E & L & _ & F). exists v, h'. split; [exact E|]. split; [exact L|]. apply (fresh_of w), F.
Qed.

(** [invulnerability_level], the one attribute whose type depends on the version (unit.py:551): *)
Definition deep_hop (d : deep) (s : hop) : option deep :=
  match d, s with
  | DObj _ fs, Attr a => assoc a fs
  | DList l, Item i | DTuple l, Item i => nth_error l i
  | _, _ => None
  end.
Lemma ownf_at {ee : Era} h ds vs fps a w : ownf h ds vs fps -> assoc a vs = Some w -> exists d fp, assoc a ds = Some d /\ own h d w fp.
Proof.
  intros O. induction O as [|x d v fp ds vs fps H O IH]; intros E; [discriminate E|]. cbn [assoc] in *. destruct (String.eqb a x).
  - injection E as ->. exists d, fp. split; [reflexivity|exact H].
  - apply IH, E.
Qed.
Lemma owns_at {ee : Era} h ds vs fps : owns h ds vs fps -> forall i w, nth_error vs i = Some w -> exists d fp, nth_error ds i = Some d /\ own h d w fp.
Proof.
  intros O. induction O as [|d v fp ds vs fps H O IH]; intros [|i] w E; try discriminate E; cbn [nth_error] in *.
  - injection E as ->. exists d, fp. split; [reflexivity|exact H].
  - apply IH, E.
Qed.
Lemma own_deep_hop {ee : Era} h d v fp s w : own h d v fp -> hop_to h v s = Some w -> exists d' fp', deep_hop d s = Some d' /\ own h d' w fp'.
Proof.
  intros O E. destruct d as [|z|x|t|b|b|n|c|c ?|f|r ?|l|l|c fs|x]; try (destruct O as [-> _]; discriminate E); try contradiction O.
  - apply own_list in O as (q & vs & fps & -> & Q & _ & O). cbn [hop_to] in E. rewrite Q in E. destruct s as [a|i]; [discriminate E|]. apply (owns_at _ _ _ _ O _ _ E).
  - apply own_tuple in O as (vs & fps & -> & _ & O). destruct s as [a|i]; [discriminate E|]. apply (owns_at _ _ _ _ O _ _ E).
  - apply own_obj in O as (q & vs & fps & -> & Q & _ & O). cbn [hop_to] in E. rewrite Q in E. destruct s as [a|i]; [|discriminate E]. apply (ownf_at _ _ _ _ _ _ O E).
  - destruct O as [O _]. unfold level in O. destruct the_era; [destruct O as [->|[-> _]]|destruct O as [-> _]|subst v]; discriminate E.
Qed.
Lemma own_deep_hops {ee : Era} h p : forall d v fp w, own h d v fp -> follow h v p = Some w ->
  exists d' fp', fold_left (fun o s => match o with Some d => deep_hop d s | None => None end) p (Some d) = Some d' /\ own h d' w fp'.
Proof.
  induction p as [|s p IH]; intros d v fp w O E; cbn [follow fold_left] in *.
  - injection E as <-. exists d, fp. split; [reflexivity|exact O].
  - destruct (hop_to h v s) as [u|] eqn:H; [|discriminate E]. destruct (own_deep_hop _ _ _ _ _ _ O H) as (d1 & fp1 & -> & O1). apply (IH _ _ _ _ O1 E).
Qed.
Lemma own_hops_back {ee : Era} h p : forall d v fp d', own h d v fp ->
  fold_left (fun o s => match o with Some d => deep_hop d s | None => None end) p (Some d) = Some d' -> exists w fp', follow h v p = Some w /\ own h d' w fp'.
Proof.
  assert (N : forall p, fold_left (fun o s => match o with Some d => deep_hop d s | None => None end) p (@None deep) = None) by (induction p0; [reflexivity|assumption]).
  induction p as [|s p IH]; intros d v fp d' O E; cbn [follow fold_left] in *.
  - injection E as <-. exists v, fp. split; [reflexivity|exact O].
  - destruct (deep_hop d s) as [d1|] eqn:H; [|rewrite N in E; discriminate E].
    assert (X : exists w1 fp1, hop_to h v s = Some w1 /\ own h d1 w1 fp1).
    { destruct d as [|z|x|t|b|b|n|c|c ?|f|r ?|l|l|c fs|x]; try discriminate H; destruct s as [a|i]; try discriminate H; cbn [deep_hop] in H.
      - apply own_list in O as (q & vs & fps & -> & Q & _ & O). cbn [hop_to]. rewrite Q. clear - O H. revert i H. induction O as [|d v fp ds vs fps OH O IH]; intros [|i] H; try discriminate H; cbn [nth_error] in *.
        + injection H as <-. exists v, fp. split; [reflexivity|exact OH].
        + apply IH, H.
      - apply own_tuple in O as (vs & fps & -> & _ & O). cbn [hop_to]. clear - O H. revert i H. induction O as [|d v fp ds vs fps OH O IH]; intros [|i] H; try discriminate H; cbn [nth_error] in *.
        + injection H as <-. exists v, fp. split; [reflexivity|exact OH].
        + apply IH, H.
      - apply own_obj in O as (q & vs & fps & -> & Q & _ & O). cbn [hop_to]. rewrite Q. clear - O H. induction O as [|x d v fp ds vs fps OH O IH]; [discriminate H|]. cbn [assoc] in *. destruct (String.eqb a x).
        + injection H as <-. exists v, fp. split; [reflexivity|exact OH].
        + apply IH, H. }
    destruct X as (w1 & fp1 & -> & O1). apply (IH _ _ _ _ O1 E).
Qed.
Theorem C49_level : forall n h data content input_file v h' x w i j y, (18 <= n)%nat ->
  user_load n h data content input_file = Ret (v, h') -> from_bytes data = Ok x -> version_lookup (DatFile_version x) = Ok w ->
  follow h' v [Attr "civs"; Item i; Attr "units"; Item j; Attr "creatable"; Attr "invulnerability_level"]%string = Some y ->
  if version_ge w VER_84 then exists z, y = PFloat z else y = PInt 0.
Proof.
  intros n h data content input_file v h' x w i j y N E X W F. pose proof (C49_exact n h data content input_file N) as H. rewrite X in H.
  destruct H as (v0 & h0 & w0 & E0 & _ & W0 & fp & O & _). rewrite E0 in E. injection E as -> ->. rewrite W0 in W. injection W as ->.
  destruct (own_deep_hops _ _ _ _ _ _ O F) as (d & fp' & D & O'). clear - D O'.
  cbn [fold_left deep_hop DatFile_deep assoc String.eqb Ascii.eqb Bool.eqb] in D. rewrite nth_error_map in D. destruct (nth_error (DatFile_civs x) i) as [c|]; [|discriminate D]. cbn [option_map] in D.
  cbn in D. rewrite nth_error_map in D. destruct (nth_error (Civ_units c) j) as [[u|]|]; try discriminate D. cbn in D. destruct (Unit_creatable u) as [k|]; [|discriminate D].
  cbn in D. injection D as <-. destruct O' as [O' _]. unfold level, the_era, time_of in O'. destruct (version_ge w VER_84); [exists (Creatable_invulnerability_level k); exact O'|apply O'].
Qed.

(** The exceptions are those of the typed model: nothing is missing, misspelt or of the wrong type, and
    18 frames of stack are enough for every file. *)
Theorem C49_only : forall n h data content input_file f, (18 <= n)%nat ->
  user_load n h data content input_file = Raise f -> exists e, f = Std e /\ from_bytes data = Err e.
Proof.
  intros n h data content input_file f N E. pose proof (C49_DatFile n h data content input_file N) as H. destruct (from_bytes data) as [x|e].
  - destruct H as (v & h' & E' & _). rewrite E' in E. discriminate E.
  - rewrite H in E. injection E as <-. exists e. split; reflexivity.
Qed.
(** Every other class: the handler is advanced as in the model, the objects are new, nothing else
    changes. *)
Definition loads_with {A} (k : nat) (c a : string) (args : list (string * val)) (f : rd A) (D : A -> deep) : Prop :=
  forall n h l hd, (k <= n)%nat -> nth_error h l = Some (hobj hd) ->
  match f hd with
  | Ok (x, hd') => exists v h', user_read n h c a l args = Ret (v, h') /\ nth_error h' l = Some (hobj hd') /\
      (forall i o, i <> l -> nth_error h i = Some o -> nth_error h' i = Some o) /\ fresh_tree h h' (D x) v
  | Err e => user_read n h c a l args = Raise (Std e)
  end.
Definition loads {A} (k : nat) (c : string) (f : rd A) (D : A -> deep) : Prop := loads_with k c "from_bytes" [] f D.
Lemma loads_with_of {A} k c a args (f : rd A) D : reads k c a (map snd args) f D -> reader c a -> global source "__main__" c = Some (PClass c) ->
  c <> "content"%string -> assoc c args = None -> (forall l n, pargs n "__main__" (("content"%string, PRef l) :: args) (map (fun x => EName (fst x)) args) (map snd args) []) ->
  loads_with k c a args f D.
Proof.
  intros R (kk & fn & C1 & C2 & C3 & C4) G NC A0 P n h l hd N AT. pose proof (R n l hd h N (mkAt _ l hd h AT Logic.I)) as H. unfold ok in H.
  assert (E : user_read n h c a l args = call source n (PMeth (PClass c) a) (PRef l :: map snd args) [] h).
  { unfold user_read. erewrite eval_call_pure; [reflexivity|eapply p_class_attr; try eassumption; [cbn [assoc]; apply String.eqb_neq in NC; rewrite NC; exact A0|right; exact C4]|]. apply pa_pos; [reflexivity|apply p_name; reflexivity|apply P]. }
  rewrite E. destruct (f hd) as [[x hd']|e]; [|exact H]. destruct H as (v & h' & E' & A' & [T1 T2] & fp & O & Se). exists v, h'. split; [exact E'|]. split; [exact A'|]. split.
  - intros i o NI I. rewrite T2; [exact I|apply (nth_lt _ _ _ I)|exact NI].
  - exists fp. split; [exact O|]. split; [apply Se|]. intros q I. apply Se, I.
Qed.
Lemma loads_of {A} k c (f : rd A) D : reads k c "from_bytes" [] f D -> reader c "from_bytes" -> global source "__main__" c = Some (PClass c) -> loads k c f D.
Proof.
  intros R RC G. apply loads_with_of; try assumption; [|reflexivity|intros l n; apply pa_nil]. intros ->.
  assert (X : global source "__main__" "content" = None) by look. rewrite X in G. discriminate G.
Qed.
Theorem C49_SoundItem : loads 5 "SoundItem" SoundItem_from_bytes SoundItem_deep. Proof. apply loads_of; [apply SoundItem_r|apply SoundItem_k|look]. Qed.
Theorem C49_Sound : loads 7 "Sound" Sound_from_bytes Sound_deep. Proof. apply loads_of; [apply Sound_r|apply Sound_k|look]. Qed.
Theorem C49_PlayerColour : loads 5 "PlayerColour" PlayerColour_from_bytes PlayerColour_deep. Proof. apply loads_of; [apply PlayerColour_r|apply PlayerColour_k|look]. Qed.
Theorem C49_EffectCommand : loads 5 "EffectCommand" EffectCommand_from_bytes EffectCommand_deep. Proof. apply loads_of; [apply EffectCommand_r|apply EffectCommand_k|look]. Qed.
Theorem C49_Effect : loads 7 "Effect" Effect_from_bytes Effect_deep. Proof. apply loads_of; [apply Effect_r|apply Effect_k|look]. Qed.
Theorem C49_TerrainPassGraphic : loads 5 "TerrainPassGraphic" TerrainPassGraphic_from_bytes TerrainPassGraphic_deep. Proof. apply loads_of; [apply TerrainPassGraphic_r|apply TerrainPassGraphic_k|look]. Qed.
Theorem C49_GraphicDelta : loads 5 "GraphicDelta" GraphicDelta_from_bytes GraphicDelta_deep. Proof. apply loads_of; [apply GraphicDelta_r|apply GraphicDelta_k|look]. Qed.
Theorem C49_GraphicAngleSound : loads 5 "GraphicAngleSound" GraphicAngleSound_from_bytes GraphicAngleSound_deep. Proof. apply loads_of; [apply GraphicAngleSound_r|apply GraphicAngleSound_k|look]. Qed.
Theorem C49_Graphic : loads 7 "Graphic" Graphic_from_bytes Graphic_deep. Proof. apply loads_of; [apply Graphic_r|apply Graphic_k|look]. Qed.
Theorem C49_FrameData : loads 5 "FrameData" FrameData_from_bytes FrameData_deep. Proof. apply loads_of; [apply FrameData_r|apply FrameData_k|look]. Qed.
Theorem C49_Terrain : loads 7 "Terrain" Terrain_from_bytes Terrain_deep. Proof. apply loads_of; [apply Terrain_r|apply Terrain_k|look]. Qed.
Theorem C49_TileSize : loads 5 "TileSize" TileSize_from_bytes TileSize_deep. Proof. apply loads_of; [apply TileSize_r|apply TileSize_k|look]. Qed.
Theorem C49_TerrainBlock : loads 9 "TerrainBlock" TerrainBlock_from_bytes TerrainBlock_deep. Proof. apply loads_of; [apply TerrainBlock_r|apply TerrainBlock_k|look]. Qed.
Theorem C49_MapUnit : loads 5 "MapUnit" MapUnit_from_bytes MapUnit_deep. Proof. apply loads_of; [apply MapUnit_r|apply MapUnit_k|look]. Qed.
Theorem C49_MapTerrain : loads 5 "MapTerrain" MapTerrain_from_bytes MapTerrain_deep. Proof. apply loads_of; [apply MapTerrain_r|apply MapTerrain_k|look]. Qed.
Theorem C49_MapLand : loads 5 "MapLand" MapLand_from_bytes MapLand_deep. Proof. apply loads_of; [apply MapLand_r|apply MapLand_k|look]. Qed.
Theorem C49_MapElevation : loads 5 "MapElevation" MapElevation_from_bytes MapElevation_deep. Proof. apply loads_of; [apply MapElevation_r|apply MapElevation_k|look]. Qed.
Theorem C49_MapInfo : loads 7 "MapInfo" MapInfo_from_bytes MapInfo_deep. Proof. apply loads_of; [apply MapInfo_r|apply MapInfo_k|look]. Qed.
Theorem C49_RandomMaps : loads 9 "RandomMaps" RandomMaps_from_bytes RandomMaps_deep. Proof. apply loads_of; [apply RandomMaps_r|apply RandomMaps_k|look]. Qed.
Theorem C49_ResearchResourceCost : loads 5 "ResearchResourceCost" ResearchResourceCost_from_bytes ResearchResourceCost_deep. Proof. apply loads_of; [apply ResearchResourceCost_r|apply ResearchResourceCost_k|look]. Qed.
Theorem C49_ResearchLocation : loads 5 "ResearchLocation" ResearchLocation_from_bytes ResearchLocation_deep. Proof. apply loads_of; [apply ResearchLocation_r|apply ResearchLocation_k|look]. Qed.
Theorem C49_Tech : loads 9 "Tech" Tech_from_bytes Tech_deep. Proof. apply loads_of; [apply Tech_r|apply Tech_k|look]. Qed.
Theorem C49_Common : loads 5 "Common" Common_from_bytes Common_deep. Proof. apply loads_of; [apply Common_r|apply Common_k|look]. Qed.
Theorem C49_TechTreeAge : loads 7 "TechTreeAge" TechTreeAge_from_bytes TechTreeAge_deep. Proof. apply loads_of; [apply TechTreeAge_r|apply TechTreeAge_k|look]. Qed.
Theorem C49_BuildingConnection : loads 7 "BuildingConnection" BuildingConnection_from_bytes BuildingConnection_deep. Proof. apply loads_of; [apply BuildingConnection_r|apply BuildingConnection_k|look]. Qed.
Theorem C49_UnitConnection : loads 7 "UnitConnection" UnitConnection_from_bytes UnitConnection_deep. Proof. apply loads_of; [apply UnitConnection_r|apply UnitConnection_k|look]. Qed.
Theorem C49_ResearchConnection : loads 7 "ResearchConnection" ResearchConnection_from_bytes ResearchConnection_deep. Proof. apply loads_of; [apply ResearchConnection_r|apply ResearchConnection_k|look]. Qed.
Theorem C49_TechTree : loads 9 "TechTree" TechTree_from_bytes TechTree_deep. Proof. apply loads_of; [apply TechTree_r|apply TechTree_k|look]. Qed.
Theorem C49_Task : loads 6 "Task" Task_from_bytes Task_deep. Proof. apply loads_of; [apply Task_r|apply Task_k|look]. Qed.
Theorem C49_UnitHeaders : loads 8 "UnitHeaders" UnitHeaders_from_bytes UnitHeaders_deep. Proof. apply loads_of; [apply UnitHeaders_r|apply UnitHeaders_k|look]. Qed.
Theorem C49_ResourceStorage : loads 5 "ResourceStorage" ResourceStorage_from_bytes ResourceStorage_deep. Proof. apply loads_of; [apply ResourceStorage_r|apply ResourceStorage_k|look]. Qed.
Theorem C49_DamageGraphic : loads 5 "DamageGraphic" DamageGraphic_from_bytes DamageGraphic_deep. Proof. apply loads_of; [apply DamageGraphic_r|apply DamageGraphic_k|look]. Qed.
Theorem C49_DeadFish : loads 5 "DeadFish" DeadFish_from_bytes DeadFish_deep. Proof. apply loads_of; [apply DeadFish_r|apply DeadFish_k|look]. Qed.
Theorem C49_Bird : loads 8 "Bird" Bird_from_bytes Bird_deep. Proof. apply loads_of; [apply Bird_r|apply Bird_k|look]. Qed.
Theorem C49_AttackOrArmor : loads 5 "AttackOrArmor" AttackOrArmor_from_bytes AttackOrArmor_deep. Proof. apply loads_of; [apply AttackOrArmor_r|apply AttackOrArmor_k|look]. Qed.
Theorem C49_Type50 : loads 7 "Type50" Type50_from_bytes Type50_deep. Proof. apply loads_of; [apply Type50_r|apply Type50_k|look]. Qed.
Theorem C49_Projectile : loads 5 "Projectile" Projectile_from_bytes Projectile_deep. Proof. apply loads_of; [apply Projectile_r|apply Projectile_k|look]. Qed.
Theorem C49_ResourceCost : loads 5 "ResourceCost" ResourceCost_from_bytes ResourceCost_deep. Proof. apply loads_of; [apply ResourceCost_r|apply ResourceCost_k|look]. Qed.
Theorem C49_TrainLocation : loads 6 "TrainLocation" TrainLocation_from_bytes TrainLocation_deep. Proof. apply loads_of; [apply TrainLocation_r|apply TrainLocation_k|look]. Qed.
Theorem C49_Creatable : loads 9 "Creatable" Creatable_from_bytes Creatable_deep. Proof. apply loads_of; [apply Creatable_r|apply Creatable_k|look]. Qed.
Theorem C49_BuildingAnnex : loads 5 "BuildingAnnex" BuildingAnnex_from_bytes BuildingAnnex_deep. Proof. apply loads_of; [apply BuildingAnnex_r|apply BuildingAnnex_k|look]. Qed.
Theorem C49_Building : loads 7 "Building" Building_from_bytes Building_deep. Proof. apply loads_of; [apply Building_r|apply Building_k|look]. Qed.
Theorem C49_Unit : loads 14 "Unit" Unit_from_bytes Unit_deep. Proof. apply loads_of; [apply Unit_r|apply Unit_k|look]. Qed.
Theorem C49_Civ : loads 16 "Civ" Civ_from_bytes Civ_deep. Proof. apply loads_of; [apply Civ_r|apply Civ_k|look]. Qed.
Theorem C49_TerrainRestriction : forall count, loads_with 7 "TerrainRestriction" "from_bytes_with_count" [("terrain_count"%string, PInt count)]
  (TerrainRestriction_from_bytes_with_count count) TerrainRestriction_deep.
Proof.
  intros count. apply loads_with_of; [apply TerrainRestriction_r|apply TerrainRestriction_k|look|discriminate|reflexivity|].
  intros l n. apply pa_pos; [reflexivity|apply p_name; reflexivity|apply pa_nil].
Qed.

(** ** C50: the objects of a loaded file *)
(** Whatever can be reached by [.a] and [[i]] can be reached in one way only. *)
Theorem C50_one_path : forall n h data content input_file v h', (18 <= n)%nat -> user_load n h data content input_file = Ret (v, h') ->
  forall p1 p2 q, follow h' v p1 = Some (PRef q) -> follow h' v p2 = Some (PRef q) -> p1 = p2.
Proof.
  intros n h data content input_file v h' N E p1 p2 q. pose proof (C49_DatFile n h data content input_file N) as H. destruct (from_bytes data) as [x|e]; [|rewrite H in E; discriminate E].
  destruct H as (v0 & h0 & E0 & _ & fp & O & ND & _). rewrite E0 in E. injection E as -> ->. apply (no_alias _ _ _ _ _ _ _ O ND).
Qed.
(** It is new. *)
Theorem C50_fresh : forall n h data content input_file v h', (18 <= n)%nat -> user_load n h data content input_file = Ret (v, h') ->
  forall p q, follow h' v p = Some (PRef q) -> nth_error h q = None.
Proof.
  intros n h data content input_file v h' N E p q F. pose proof (C49_DatFile n h data content input_file N) as H. destruct (from_bytes data) as [x|e]; [|rewrite H in E; discriminate E].
  destruct H as (v0 & h0 & E0 & _ & fp & O & ND & R). rewrite E0 in E. injection E as -> ->. apply nth_error_None, R, (follow_in _ _ _ _ _ _ O ND F).
Qed.
(** Two loaded files, even of the same data, share nothing, and loading the second leaves the first as it is. *)
Lemma follow_later h h' p : later h h' -> forall v w, follow h v p = Some w -> follow h' v p = Some w.
Proof.
  intros L. induction p as [|s p IH]; intros v w E; [exact E|]. cbn [follow] in *. destruct (hop_to h v s) as [u|] eqn:H; [|discriminate E].
  replace (hop_to h' v s) with (Some u); [apply IH, E|]. symmetry. destruct v, s as [a|i]; try discriminate H; try exact H; cbn [hop_to] in *.
  - destruct (nth_error h l) as [o|] eqn:Q; [|discriminate H]. rewrite (L _ _ Q). exact H.
  - destruct (nth_error h l) as [o|] eqn:Q; [|discriminate H]. rewrite (L _ _ Q). exact H.
Qed.
Theorem C50_two : forall n h1 data1 data2 c1 c2 i1 i2 v1 v2 h2 h3, (18 <= n)%nat -> user_load n h1 data1 c1 i1 = Ret (v1, h2) -> user_load n h2 data2 c2 i2 = Ret (v2, h3) ->
  (forall p w, follow h2 v1 p = Some w -> follow h3 v1 p = Some w) /\
  (forall p1 p2 q1 q2, follow h3 v1 p1 = Some (PRef q1) -> follow h3 v2 p2 = Some (PRef q2) -> q1 <> q2).
Proof.
  intros n h1 data1 data2 c1 c2 i1 i2 v1 v2 h2 h3 N E1 E2. pose proof (C49_DatFile n h1 data1 c1 i1 N) as H1. destruct (from_bytes data1) as [x1|e]; [|rewrite H1 in E1; discriminate E1].
  pose proof (C49_DatFile n h2 data2 c2 i2 N) as H2. destruct (from_bytes data2) as [x2|e]; [|rewrite H2 in E2; discriminate E2].
  destruct H1 as (w1 & k1 & F1 & L1 & f1 & O1 & N1 & R1). rewrite E1 in F1. injection F1 as <- <-. destruct H2 as (w2 & k2 & F2 & L2 & f2 & O2 & N2 & R2). rewrite E2 in F2. injection F2 as <- <-.
  split; [intros p w; apply follow_later, L2|]. intros p1 p2 q1 q2 P1 P2.
  assert (O1' : own h3 (DatFile_deep x1) v1 f1).
  { apply (own_keeps h2); [|exact O1]. intros i I. specialize (R1 i I). destruct (nth_error h2 i) as [o|] eqn:Q; [apply L2, Q|]. apply nth_error_None in Q. lia. }
  pose proof (R1 _ (follow_in _ _ _ _ _ _ O1' N1 P1)). pose proof (R2 _ (follow_in _ _ _ _ _ _ O2 N2 P2)). lia.
Qed.

(** ** C51: changing one attribute *)
(** A value without parts, and what it is in the heap. *)
Inductive immediate : deep -> val -> Prop :=
| im_none : immediate DNone PNone
| im_bool b : immediate (DBool b) (PBool b)
| im_int z : immediate (DInt z) (PInt z)
| im_float x : immediate (DFloat x) (PFloat x)
| im_str s : immediate (DStr s) (PStr s)
| im_bytes b : immediate (DBytes b) (PBytes b)
(** for [invulnerability_level], which may be the int 0 *)
| im_num x : immediate (DNum x) (PFloat x)
| im_num_zero : immediate (DNum f64_zero) (PInt 0).
Lemma immediate_own d v : immediate d v -> forall h, own h d v [].
Proof. intros [| | | | | | |] h; cbn [own]; try (split; reflexivity); (split; [|reflexivity]); [left; reflexivity|right; split; reflexivity]. Qed.
Lemma set_runs n h v p a w q c fs w0 : follow h v p = Some (PRef q) -> nth_error h q = Some (OInst c fs) -> assoc a fs = Some w0 ->
  user_set n h v p a w = Ret (PNone, put h q (OInst c (set_field fs a w))).
Proof.
  intros F Q A. unfold user_set. erewrite run_set_ret; [reflexivity|apply p_name; reflexivity|eapply eval_path; [|exact F]|eapply set_run; eassumption].
  apply p_name. reflexivity.
Qed.
(** [dat.p.a = value] on any object graph without sharing, such as a loaded file: it gives the tree in
    which that one attribute is changed, and it is one object that changed. *)
Theorem C51_edit : forall n h0 h d v p a new w d', fresh_tree h0 h d v -> immediate new w -> edit p a new d = Some d' ->
  exists q h', user_set n h v p a w = Ret (PNone, h') /\ fresh_tree h0 h' d' v /\
    follow h v p = Some (PRef q) /\ (forall i, i <> q -> nth_error h' i = nth_error h i).
Proof.
  intros n h0 h d v p a new w d' (fp & O & ND & R) IM E.
  destruct (own_edit h a new w p d v fp d' (immediate_own _ _ IM) O ND E) as (q & o & o' & fp' & F & Q & U & I & O' & N' & I'). 
  destruct o as [|c fs]; [discriminate U|]. cbn [upd_set] in U. destruct (assoc a fs) as [w0|] eqn:A; [|discriminate U]. injection U as <-.
  exists q, (put h q (OInst c (set_field fs a w))). split; [apply (set_runs n h v p a w q c fs w0 F Q A)|]. split.
  - exists fp'. split; [exact O'|]. split; [exact N'|]. intros i J. rewrite put_length. apply R, I', J.
  - split; [exact F|]. intros i NI. apply put_other, NI.
Qed.
(** There is no such attribute: AttributeError. *)
Fixpoint at_path (p : list hop) (d : deep) : option deep :=
  match p, d with
  | [], d => Some d
  | Attr b :: p, DObj c fs => match assoc b fs with Some d => at_path p d | None => None end
  | Item i :: p, (DList l | DTuple l) => match nth_error l i with Some d => at_path p d | None => None end
  | _, _ => None
  end.
Lemma own_at h p : forall d v fp d', own h d v fp -> at_path p d = Some d' -> exists w fp', follow h v p = Some w /\ own h d' w fp'.
Proof.
  assert (X : forall l vs fps i d', owns h l vs fps -> nth_error l i = Some d' -> exists w fp', nth_error vs i = Some w /\ own h d' w fp').
  { intros l vs fps i d' O. revert i. induction O as [|d v fp l vs fps H O IH]; intros [|i] E; try discriminate E; cbn [nth_error] in *; [injection E as <-; exists v, fp; split; [reflexivity|exact H]|apply IH, E]. }
  assert (Y : forall l vs fps a d', ownf h l vs fps -> assoc a l = Some d' -> exists w fp', assoc a vs = Some w /\ own h d' w fp').
  { intros l vs fps a d' O. induction O as [|x d v fp l vs fps H O IH]; intros E; [discriminate E|]. cbn [assoc] in *. destruct (String.eqb a x); [injection E as <-; exists v, fp; split; [reflexivity|exact H]|apply IH, E]. }
  induction p as [|s p IH]; intros d v fp d' O E.
  - injection E as <-. exists v, fp. split; [reflexivity|exact O].
  - destruct s as [b|i]; destruct d as [| | | | | |l|l|c fs| | | | | |]; try discriminate E; cbn [at_path] in E.
    + apply own_obj in O as (q & vs & fps & -> & Q & -> & O). destruct (assoc b fs) as [d1|] eqn:A; [|discriminate E]. destruct (Y _ _ _ _ _ O A) as (w & fp' & W & OW).
      destruct (IH _ _ _ _ OW E) as (u & fp'' & F & OU). exists u, fp''. split; [cbn [follow hop_to]; rewrite Q, W; exact F|exact OU].
    + apply own_list in O as (q & vs & fps & -> & Q & -> & O). destruct (nth_error l i) as [d1|] eqn:A; [|discriminate E]. destruct (X _ _ _ _ _ O A) as (w & fp' & W & OW).
      destruct (IH _ _ _ _ OW E) as (u & fp'' & F & OU). exists u, fp''. split; [cbn [follow hop_to]; rewrite Q, W; exact F|exact OU].
    + apply own_tuple in O as (vs & fps & -> & -> & O). destruct (nth_error l i) as [d1|] eqn:A; [|discriminate E]. destruct (X _ _ _ _ _ O A) as (w & fp' & W & OW).
      destruct (IH _ _ _ _ OW E) as (u & fp'' & F & OU). exists u, fp''. split; [cbn [follow hop_to]; rewrite W; exact F|exact OU].
Qed.
Theorem C51_typo : forall n h0 h d v p a w c fs k, fresh_tree h0 h d v -> at_path p d = Some (DObj c fs) -> assoc a fs = None -> class_of source c = Some k -> c_sort k = Dataclass ->
  user_set n h v p a w = Raise (Std AttributeError).
Proof.
  intros n h0 h d v p a w c fs k (fp & O & _) P A C S. destruct (own_at _ _ _ _ _ _ O P) as (u & fp' & F & OU). apply own_obj in OU as (q & vs & fps & -> & Q & _ & OF).
  pose proof (ownf_assoc _ _ _ _ a OF) as AV. rewrite A in AV. unfold user_set. rewrite run_set.
  erewrite mbind_ret; [|apply p_name; reflexivity]. erewrite mbind_ret; [|eapply eval_path; [apply p_name; reflexivity|exact F]].
  unfold mbind at 1. unfold set_attr, mbind, get_obj. rewrite Q. cbn [mopt]. unfold mret. rewrite AV, C, S. reflexivity.
Qed.
(** Load, change one attribute, save: the bytes, or the exception, of the record that was changed there. *)
Theorem C51_load_edit_save : forall n h data content input_file x p a new w y, (20 <= n)%nat -> from_bytes data = Ok x ->
  immediate new w -> edit p a new (DatFile_deep x) = Some (DatFile_deep y) ->
  exists v h1 h2, user_load n h data content input_file = Ret (v, h1) /\ user_set n h1 v p a w = Ret (PNone, h2) /\
    match to_bytes y with
    | Ok b => exists h3, user_save_file n h2 v = Ret (PBytes b, h3) /\ later h h3
    | Err e => user_save_file n h2 v = Raise (Std e)
    end.
Proof.
  intros n h data content input_file x p a new w y N FB IM E. pose proof (C49_DatFile n h data content input_file ltac:(lia)) as H. rewrite FB in H.
  destruct H as (v & h1 & E1 & L1 & FT). destruct (C51_edit n _ _ _ _ _ _ _ _ _ FT IM E) as (q & h2 & E2 & FT2 & F & SAME).
  destruct FT2 as (fp & O & ND & R). destruct (C46_DatFile n h2 y v N (own_stands _ _ _ _ _ O)) as [A _]. unfold to_bytes.
  exists v, h1, h2. split; [exact E1|]. split; [exact E2|]. unfold agrees in A. destruct (DatFile_to_bytes y UNDEFINED) as [b|e]; [|exact A].
  destruct A as (h3 & E3 & L3). exists h3. split; [exact E3|]. intros l o I. apply L3. destruct FT as (fp1 & O1 & N1 & R1).
  pose proof (R1 _ (follow_in _ _ _ _ _ _ O1 N1 F)). pose proof (nth_lt _ _ _ I). rewrite SAME by lia. apply L1, I.
Qed.

(** ** C52: loading and saving *)
(** Whatever loads can be saved; the result loads to the same contents; it is the same file exactly
    when nothing was lost and nothing left over. *)
Theorem C52_load_save : forall n h data content input_file v h1, (20 <= n)%nat -> user_load n h data content input_file = Ret (v, h1) ->
  exists b h2 x hd, user_save_file n h1 v = Ret (PBytes b, h2) /\ later h1 h2 /\ DatFile_from_bytes (new_handler data) = Ok (x, hd) /\ from_bytes b = Ok x /\
    (b = data <-> h_losses hd = [] /\ h_offset hd = List.length data).
Proof.
  intros n h data content input_file v h1 N E. pose proof (C49_DatFile n h data content input_file ltac:(lia)) as H. destruct (from_bytes data) as [x|e] eqn:FB; [|rewrite H in E; discriminate E].
  destruct H as (v0 & h0 & E0 & _ & fp & O & _). rewrite E0 in E. injection E as -> ->. destruct (C03_fixpoint _ _ FB) as [(b & TB & FB') _].
  destruct (C48_DatFile n h1 x v b N (own_stands _ _ _ _ _ O) TB) as (h2 & E2 & L2). unfold from_bytes in FB. destruct (DatFile_from_bytes (new_handler data)) as [[x' hd]|e] eqn:D; [|discriminate FB].
  injection FB as ->. exists b, h2, x, hd. split; [exact E2|]. split; [exact L2|]. split; [reflexivity|]. split; [exact FB'|].
  rewrite (C04_byte_exact_whole _ _ _ D). rewrite TB. split; [intros ->; reflexivity|]. intros X. injection X as ->. reflexivity.
Qed.
(** Whatever was saved, if it is consistent, loads to a new object graph with the same contents. *)
Theorem C52_save_load : forall n h x v content input_file, (20 <= n)%nat -> DatFile_wf x -> stands false h (DatFile_deep x) v ->
  exists b h1 v' h2, user_save_file n h v = Ret (PBytes b, h1) /\ user_load n h1 b content input_file = Ret (v', h2) /\
    later h h2 /\ stands false h2 (DatFile_deep x) v /\ fresh_tree h1 h2 (DatFile_deep x) v'.
Proof.
  intros n h x v content input_file N W S0. destruct (C01_round_trip x W) as (b & TB & FB & _). destruct (C46_DatFile n h x v N S0) as [A _]. unfold to_bytes in TB. rewrite TB in A. 
  destruct A as (h1 & E1 & L1). pose proof (C49_DatFile n h1 b content input_file ltac:(lia)) as H. rewrite FB in H. destruct H as (v' & h2 & E2 & L2 & FT).
  exists b, h1, v', h2. split; [exact E1|]. split; [exact E2|]. split; [apply (later_trans _ _ _ L1 L2)|]. split; [|exact FT].
  apply (stands_later false h1 h2); [exact L2|]. apply (stands_later false h h1); [exact L1|exact S0].
Qed.

(** ** Concrete cases *)
(** A file of every version loads. *)
Example C49_case : forall v h, v <> UNDEFINED -> exists data obj h', to_bytes (sample v) = Ok data /\
  user_load 18 h data PNone PNone = Ret (obj, h') /\ fresh_tree h h' (DatFile_deep (sample v)) obj.
Proof.
  intros v h V. destruct (C01_round_trip _ (sample_wf v V)) as (data & TB & FB & _). pose proof (C49_DatFile 18 h data PNone PNone (le_n _)) as H. rewrite FB in H.
  destruct H as (obj & h' & E & _ & FT). exists data, obj, h'. split; [exact TB|]. split; [exact E|exact FT].
Qed.
(** In these files there is such a level. *)
Example C49_case_level : forall v h, v <> UNDEFINED -> exists data obj h' y, to_bytes (sample v) = Ok data /\
  user_load 18 h data PNone PNone = Ret (obj, h') /\
  follow h' obj [Attr "civs"; Item 0; Attr "units"; Item 0; Attr "creatable"; Attr "invulnerability_level"]%string = Some y.
Proof.
  intros v h V. destruct (C49_case v h V) as (data & obj & h' & TB & E & fp & O & _).
  assert (X : exists d, fold_left (fun o s => match o with Some d => deep_hop d s | None => None end)
    [Attr "civs"; Item 0; Attr "units"; Item 0; Attr "creatable"; Attr "invulnerability_level"]%string (Some (DatFile_deep (sample v))) = Some d)
    by (destruct v; try (contradiction V; reflexivity); eexists; vm_compute; reflexivity).
  destruct X as [d X]. destruct (own_hops_back _ _ _ _ _ _ O X) as (y & _ & F & _). exists data, obj, h', y. split; [exact TB|]. split; [exact E|exact F].
Qed.
(** A sound item, computed: the handler moves on, and the object is at the next free location. *)
Definition item_bytes : bytes := map byte_of [96; 10; 3; 0; 97; 46; 119; 7; 0; 0; 0; 50; 0; 255; 255; 2; 0; 99].
Definition item_handler (k : nat) (v : Version) : handler := mkHandler item_bytes k v [].
Example C49_case_item : user_read 5 [hobj (item_handler 0 VER_88)] "SoundItem" "from_bytes" 0 [] =
  Ret (PRef 1, [hobj (item_handler 17 VER_88); OInst "SoundItem"
    [("filename", PStr (lit "a.w")); ("resource_id", PInt 7); ("probability", PInt 50); ("civilization", PInt (-1)); ("icon_set", PInt 2)]])%string.
Proof. vm_compute. reflexivity. Qed.
(** Data that is not a dat file: the same exception. *)
Example C49_case_bad : from_bytes (map byte_of [86; 69; 82; 32; 49; 46; 48; 0]) = Err ValueError /\
  user_load 18 [] (map byte_of [86; 69; 82; 32; 49; 46; 48; 0]) PNone PNone = Raise (Std ValueError).
Proof. split; vm_compute; reflexivity. Qed.
(** Assigning to an attribute of the file, to one further in, and to a misspelt one. *)
Example C51_case : forall x z, edit [] "time_slice" (DInt z) (DatFile_deep x) = Some (DatFile_deep (with_DatFile_time_slice z x)).
Proof. intros x z. destruct x. reflexivity. Qed.
Example C51_case_deep : forall x c l s, DatFile_civs x = c :: l ->
  edit [Attr "civs"; Item 0] "name" (DStr s) (DatFile_deep x) = Some (DatFile_deep (with_DatFile_civs (with_Civ_name s c :: l) x)).
Proof. intros x c l s E. destruct x, c. cbn in E. subst. reflexivity. Qed.
Example C51_case_typo : forall n h0 h x v w, fresh_tree h0 h (DatFile_deep x) v -> user_set n h v [] "time_slise" w = Raise (Std AttributeError).
Proof. intros n h0 h x v w FT. eapply (C51_typo _ _ _ _ _ []); [exact FT|reflexivity|reflexivity|look|reflexivity]. Qed.

Definition all_of_this_file := (C49_DatFile, C49_exact, C49_level, C49_only, C49_TerrainRestriction, C50_one_path, C50_fresh, C50_two, C51_edit, C51_typo, C51_load_edit_save, C52_load_save, C52_save_load,
  C49_SoundItem, C49_Sound, C49_PlayerColour, C49_EffectCommand, C49_Effect, C49_TerrainPassGraphic, C49_GraphicDelta, C49_GraphicAngleSound, C49_Graphic, C49_FrameData, C49_Terrain, C49_TileSize, C49_TerrainBlock, C49_MapUnit, C49_MapTerrain, C49_MapLand, C49_MapElevation, C49_MapInfo, C49_RandomMaps, C49_ResearchResourceCost, C49_ResearchLocation, C49_Tech, C49_Common, C49_TechTreeAge, C49_BuildingConnection, C49_UnitConnection, C49_ResearchConnection, C49_TechTree, C49_Task, C49_UnitHeaders, C49_ResourceStorage, C49_DamageGraphic, C49_DeadFish, C49_Bird, C49_AttackOrArmor, C49_Type50, C49_Projectile, C49_ResourceCost, C49_TrainLocation, C49_Creatable, C49_BuildingAnnex, C49_Building, C49_Unit, C49_Civ).
Print Assumptions all_of_this_file.
