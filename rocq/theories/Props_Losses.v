(** * C38: each of the situations listed in C04 is a real loss. *)
From Verif Require Import Base PyInt PyFloat PyStr PyStruct DataTypes Versions Common Wire Layout Shape Spec.
From Verif Require Import M_Sound M_PlayerColour M_Effect M_TerrainRestriction M_Graphic
  M_TerrainBlock M_RandomMaps M_Task M_UnitHeaders M_Unit M_Civ M_Tech M_TechTree M_DatFile.
From Verif Require Import Codec CodecP CodecF CodecC P_Simple P_More P_Unit P_UnitR P_Civ P_DatFile Theory Parts Sample Props_Cut.
Open Scope Z_scope.
Local Open Scope list_scope.
Local Notation length := List.length.

(** ** Reading one piece after another *)
(** With [r] left, [m] returns [x], leaves [r'] and records [new]. *)
Definition eats {A} (m : rd A) v (r : bytes) (x : A) (r' : bytes) (new : list loss) : Prop :=
  forall pre ls, exists pre', pre' ++ r' = pre ++ r /\
    m (mkHandler (pre ++ r) (length pre) v ls) = Ok (x, mkHandler (pre' ++ r') (length pre') v (new ++ ls)).
Lemma eats_ret {A} (x : A) v r : eats (ret x) v r x r [].
Proof. intros pre ls. exists pre. split; reflexivity. Qed.
Lemma eats_bind {A B} (m : rd A) (k : A -> rd B) v r x r1 n1 y r2 n2 : eats m v r x r1 n1 -> eats (k x) v r1 y r2 n2 -> eats (bind m k) v r y r2 (n2 ++ n1).
Proof.
  intros H1 H2 pre ls. destruct (H1 pre ls) as (p1 & Q1 & E1). destruct (H2 p1 (n1 ++ ls)) as (p2 & Q2 & E2).
  exists p2. split; [congruence|]. unfold bind. rewrite E1, E2, app_assoc. reflexivity.
Qed.
Lemma eats_run {A} (m : rd A) v b x r : (forall pre post, run m (pre ++ b ++ post) v (length pre) x (length pre + length b) []) -> eats m v (b ++ r) x r [].
Proof. intros H pre ls. exists (pre ++ b). split; [symmetry; apply app_assoc|]. rewrite H, <- app_assoc, app_length. reflexivity. Qed.
Lemma eats_note c l v r : eats (note c l) v r tt r (if c then [l] else []).
Proof. intros pre ls. exists pre. split; [reflexivity|]. destruct c; reflexivity. Qed.
Lemma eats_consume n b v r : length b = n -> eats (consume_range n) v (b ++ r) b r [].
Proof.
  intros L pre ls. exists (pre ++ b). split; [symmetry; apply app_assoc|]. rewrite (consume_at n pre b r) by exact L. rewrite <- app_assoc, app_length. reflexivity.
Qed.
Lemma eats_int n s b v r : length b = n -> eats (bs <- consume_range n ;; ret (Int_from_bytes bs s)) v (b ++ r) (Int_from_bytes b s) r [].
Proof. intros L. change (@nil loss) with (@nil loss ++ []). eapply eats_bind; [apply eats_consume, L|apply eats_ret]. Qed.
Lemma eats_u8 a v r : eats read_int_8 v (a :: r) (Int_from_bytes [a] false) r [].
Proof. exact (eats_int 1 false [a] v r eq_refl). Qed.
Lemma eats_i16 s a b v r : eats (read_int_16 s) v (a :: b :: r) (Int_from_bytes [a; b] s) r [].
Proof. exact (eats_int 2 s [a; b] v r eq_refl). Qed.
Lemma eats_i32 s a b c d v r : eats (read_int_32 s) v (a :: b :: c :: d :: r) (Int_from_bytes [a; b; c; d] s) r [].
Proof. exact (eats_int 4 s [a; b; c; d] v r eq_refl). Qed.
Lemma eats_lift {A} (m : res A) x v r : m = Ok x -> eats (lift m) v r x r [].
Proof. intros -> pre ls. exists pre. split; reflexivity. Qed.
Lemma eats_is {A} (m : rd A) v r x r' n x' n' : eats m v r x r' n -> x = x' -> n = n' -> eats m v r x' r' n'.
Proof. intros H -> ->. exact H. Qed.
Lemma eats_consume0 v r : eats (consume_range 0) v r [] r []. Proof. exact (eats_consume 0 [] v r eq_refl). Qed.
Lemma eats_consume1 a v r : eats (consume_range 1) v (a :: r) [a] r []. Proof. exact (eats_consume 1 [a] v r eq_refl). Qed.
Lemma eats_consume4 a b c d v r : eats (consume_range 4) v (a :: b :: c :: d :: r) [a; b; c; d] r []. Proof. exact (eats_consume 4 [a; b; c; d] v r eq_refl). Qed.
Ltac norm_loop := repeat match goal with |- context [loop (Z.to_nat ?z) _] => let n := eval vm_compute in (Z.to_nat z) in change (Z.to_nat z) with n; cbn [loop pointer_loop]
  | |- context [pointer_loop _ _ _ (Z.to_nat ?z)] => let n := eval vm_compute in (Z.to_nat z) in change (Z.to_nat z) with n; cbn [loop pointer_loop] end.
Ltac atom l := eapply eats_is; [apply l|vm_compute; reflexivity|reflexivity].
Ltac norm_truthy := try match goal with |- context [if truthy ?p then _ else _] => let b := eval vm_compute in (truthy p) in change (truthy p) with b; cbv iota end.
Ltac eat := cbv beta; norm_loop; norm_truthy; lazymatch goal with
  | G : forall r, eats ?m _ _ _ r [] |- eats ?m _ _ _ _ _ => apply G
  | |- eats (ret _) _ _ _ _ _ => apply eats_ret
  | |- eats read_int_8 _ _ _ _ _ => atom eats_u8
  | |- eats (read_int_16 _) _ _ _ _ _ => atom eats_i16
  | |- eats (read_int_32 _) _ _ _ _ _ => atom eats_i32
  | |- eats (note ?c _) _ _ _ _ _ => let b := eval vm_compute in c in change c with b; apply (eats_note b)
  | |- eats (lift _) _ _ _ _ _ => apply eats_lift; vm_compute; reflexivity
  | |- eats (consume_range ?n) _ _ _ _ _ => let k := eval vm_compute in n in change n with k; first [apply eats_consume0|apply eats_consume1|apply eats_consume4]
  | |- eats (bind _ _) _ _ _ _ _ => eapply eats_bind; [eat|eat]
  | |- _ => idtac
  end.
(** ** Files *)
Definition finish {A} (m : rd A) v r (x : A) (new : list loss) : Prop := forall pre ls, exists h', m (mkHandler (pre ++ r) (length pre) v ls) = Ok (x, h') /\ h_losses h' = new ++ ls.
Lemma finish_eats {A} (m : rd A) v r x r' n : eats m v r x r' n -> finish m v r x n.
Proof. intros H pre ls. destruct (H pre ls) as (p & _ & ->). eexists. split; reflexivity. Qed.
Lemma finish_bind {A B} (m : rd A) (k : A -> rd B) v r x r1 n1 y n2 : eats m v r x r1 n1 -> finish (k x) v r1 y n2 -> finish (bind m k) v r y (n2 ++ n1).
Proof.
  intros H1 H2 pre ls. destruct (H1 pre ls) as (p1 & Q1 & E1). destruct (H2 p1 (n1 ++ ls)) as (h2 & E2 & L2).
  exists h2. unfold bind. rewrite E1, E2, L2, app_assoc. split; reflexivity.
Qed.
Lemma finish_skip {A B} (m : rd A) (k : A -> rd B) v r x r1 y n : eats m v r x r1 [] -> finish (k x) v r1 y n -> finish (bind m k) v r y n.
Proof. intros H1 H2. pose proof (finish_bind _ _ _ _ _ _ _ _ _ H1 H2) as H. rewrite app_nil_r in H. exact H. Qed.
Lemma finish_last {A B} (m : rd A) (f : A -> B) v r x n : finish m v r x n -> finish (bind m (fun a => ret (f a))) v r (f x) n.
Proof. intros H pre ls. destruct (H pre ls) as (h & E & L). exists h. unfold bind, ret. rewrite E. split; [reflexivity|exact L]. Qed.
(** A file that is read with one loss is not reproduced. *)
Lemma lost s v bh rest x l : file_version s = Some v -> length bh = 8%nat -> String_from_bytes bh = Ok s -> finish (read_parts s) v rest x [l] ->
  exists h out, DatFile_from_bytes (new_handler (bh ++ rest)) = Ok (x, h) /\ h_losses h = [l] /\ to_bytes x = Ok out /\ out <> bh ++ rest.
Proof.
  intros V L S F. destruct (F bh []) as (h & E & Ls). rewrite app_nil_r in Ls. exists h.
  assert (R : DatFile_from_bytes (new_handler (bh ++ rest)) = Ok (x, h)).
  { rewrite from_bytes_split. unfold read_string, new_handler. unfold bind at 1 2. rewrite (consume_at 8 [] bh rest UNDEFINED [] L : consume_range 8 (mkHandler (bh ++ rest) 0 UNDEFINED []) = _).
    unfold lift at 1. rewrite S. unfold bind at 1, lift. rewrite version_lookup_spec, V. unfold bind, set_version. cbn [app length Nat.add h_content h_offset h_losses].
    rewrite <- read_parts_eq. exact E. }
  assert (W : DatFile_wf x) by (eapply (from_bytes_wf (bh ++ rest)); unfold from_bytes; rewrite R; reflexivity).
  apply wf_iff_survives in W as (out & T & _). exists out. split; [exact R|]. split; [exact Ls|]. split; [exact T|]. intros ->.
  apply (dat_exact_whole _ _ _ R) in T. destruct T as [T _]. rewrite Ls in T. discriminate T.
Qed.
(** Sections. *)
Definition front0 : Front := ([], [], [], [], [], []).
Ltac eaten := eapply eats_is; [eat|vm_compute; reflexivity|reflexivity].
Lemma eats_front0 v r : eats read_front v (zeros 10 ++ r) front0 r [].
Proof. unfold read_front, read_int_32_array, read_class_array_with_param, read_class_array, read_class_array_with_pointers, for_range. cbn [zeros repeat]. eaten. Qed.
Lemma eats_maps0 v r : eats RandomMaps_from_bytes v (zeros 8 ++ r) no_random_maps r [].
Proof. unfold RandomMaps_from_bytes, read_class_array, for_range. cbn [zeros repeat]. eaten. Qed.
Lemma eats_effects0 v r : eats read_effects v (zeros 4 ++ r) [] r [].
Proof. unfold read_effects, read_class_array, for_range. cbn [zeros repeat]. eaten. Qed.
Lemma eats_headers0 v r : eats read_headers v (zeros 4 ++ r) [] r [].
Proof. unfold read_headers, read_class_array, for_range. cbn [zeros repeat]. eaten. Qed.
Lemma eats_civs0 v r : eats read_civs v (zeros 2 ++ r) [] r [].
Proof. unfold read_civs, read_class_array, for_range. cbn [zeros repeat]. eaten. Qed.
Lemma eats_techs0 v r : eats read_techs v (zeros 2 ++ r) [] r [].
Proof. unfold read_techs, read_class_array, for_range. cbn [zeros repeat]. eaten. Qed.
Lemma eats_closing0 v r : eats read_closing v (zeros 36 ++ r) closing0 r [].
Proof. unfold read_closing, read_class, TechTree_from_bytes, read_class_array, for_range. cbn [zeros repeat]. eaten. Qed.
(** A terrain count, but no terrain restrictions. *)
Definition terrain_count : bytes := [byte_of 0; byte_of 0; byte_of 5; byte_of 0] ++ zeros 6.
Lemma eats_terrain_count v r : eats read_front v (terrain_count ++ r) front0 r [TerrainCount].
Proof. unfold read_front, read_int_32_array, read_class_array_with_param, read_class_array, read_class_array_with_pointers, for_range. cbn [terrain_count zeros repeat app]. eaten. Qed.
(** -1 effects. *)
Definition negative_count : bytes := [byte_of 255; byte_of 255; byte_of 255; byte_of 255].
Lemma eats_negative_count v r : eats read_effects v (negative_count ++ r) [] r [NegativeCount].
Proof. unfold read_effects, read_class_array, for_range. cbn [negative_count app]. eaten. Qed.
(** One effect, without commands; its name is a NUL. *)
Definition trailing_nul : bytes := [byte_of 1; byte_of 0; byte_of 0; byte_of 0; byte_of 96; byte_of 10; byte_of 1; byte_of 0; byte_of 0; byte_of 0; byte_of 0].
Lemma eats_trailing_nul v r : eats read_effects v (trailing_nul ++ r) [mkEffect [] []] r [TrailingNul].
Proof.
  unfold read_effects, read_class_array, for_range, Effect_from_bytes, read_debug_string, read_class_array, for_range. cbn [trailing_nul app].
  eaten.
Qed.
(** One effect without a name, with one command, whose amount is a signalling NaN. *)
Definition snan : bytes := [byte_of 1; byte_of 0; byte_of 0; byte_of 0; byte_of 96; byte_of 10; byte_of 0; byte_of 0; byte_of 1; byte_of 0] ++
  zeros 7 ++ [byte_of 1; byte_of 0; byte_of 128; byte_of 127].
Lemma eats_snan v r : exists x, eats read_effects v (snan ++ r) x r [SNaNQuieted].
Proof.
  eexists. unfold read_effects, read_class_array, for_range, Effect_from_bytes, read_debug_string, read_class_array, for_range, EffectCommand_from_bytes, read_float.
  cbn [snan zeros repeat app]. eapply eats_is; [eat|reflexivity|reflexivity].
Qed.
(** One graphic, whose pointer is 2. *)
Definition pointer2 (graphic : bytes) : bytes := zeros 8 ++ [byte_of 1; byte_of 0; byte_of 2; byte_of 0; byte_of 0; byte_of 0] ++ graphic.
Lemma eats_pointer2 v bg g r : (forall r, eats Graphic_from_bytes v (bg ++ r) g r []) ->
  eats read_front v (pointer2 bg ++ r) ([], [], [], [], [], [Some g]) r [PointerNot01].
Proof.
  intros G. unfold read_front, read_int_32_array, read_class_array_with_param, read_class_array, read_class_array_with_pointers, for_range.
  unfold pointer2. rewrite <- !app_assoc. cbn [zeros repeat app].
  eapply eats_is; [eat|reflexivity|reflexivity].
Qed.
(** The tech tree's last number is cut short. *)
Lemma short_i32 {B} s a b c v (k : Z -> rd B) x : (forall z h, exists h', k z h = Ok (x z, h') /\ h_losses h' = h_losses h) ->
  finish (bind (read_int_32 s) k) v [a; b; c] (x (Int_from_bytes [a; b; c] s)) [ShortRead].
Proof.
  intros K pre ls. unfold read_int_32, consume_range, consume_slice, bind, note, ret, slice. cbn [h_content h_offset h_version h_losses].
  rewrite skipn_app, skipn_all, Nat.sub_diag. cbn [app skipn firstn length Nat.ltb Nat.leb].
  match goal with |- context [k ?z ?h] => destruct (K z h) as (h' & E & L) end. rewrite E. exists h'. split; [reflexivity|exact L].
Qed.
Lemma short_closing v : exists x, finish read_closing v (zeros 35) x [ShortRead].
Proof.
  eexists. unfold read_closing, zeros. cbn [repeat].
  do 7 (eapply finish_skip; [eat|cbv beta]).
  eapply finish_last. unfold read_class. eapply (finish_last _ (fun a => a)). unfold TechTree_from_bytes.
  do 4 (eapply finish_skip; [eat|cbv beta]).
  eapply (short_i32 true _ _ _ v _ (fun z => mkTechTree z [] [] [] [])).
  intros z h. exists h. split; reflexivity.
Qed.

(** ** The theorem *)
(** For every version and every one of the situations there is a file that is loaded, with that
    situation and no other; saving the object writes something else. *)
Theorem C38_each_loss : forall v l, v <> UNDEFINED -> exists bs x h out,
  DatFile_from_bytes (new_handler bs) = Ok (x, h) /\ h_losses h = [l] /\ to_bytes x = Ok out /\ out <> bs.
Proof.
  intros v l U. destruct (get_pieces _ (sample_wf v U)) as (w & bh & bf & bb & bm & be & bu & bc & bt & bz & P).
  destruct (pc_header _ _ _ _ _ _ _ _ _ _ _ P) as (L8 & S8 & _). pose proof (pc_version _ _ _ _ _ _ _ _ _ _ _ P) as V.
  assert (B : forall r, eats TerrainBlock_from_bytes w (bb ++ r) (DatFile_terrain_block (sample v)) r []).
  { intros r. apply eats_run. exact (proj2 (pc_block _ _ _ _ _ _ _ _ _ _ _ P)). }
  assert (W : forall rest x, finish (read_parts (DatFile_version (sample v))) w rest x [l] -> exists bs x h out,
    DatFile_from_bytes (new_handler bs) = Ok (x, h) /\ h_losses h = [l] /\ to_bytes x = Ok out /\ out <> bs).
  { intros rest x F. exists (bh ++ rest), x. exact (lost _ _ _ _ _ _ V L8 S8 F). }
  assert (G : exists bg, forall r, eats Graphic_from_bytes w (bg ++ r) (sample_Graphic v) r []).
  { destruct (sample_wf v U) as [Hc Hs]. unfold DatFile_shape in Hs. unfold DatFile_layout in Hc. rewrite V in Hc, Hs.
    apply cells_ok_guard in Hc. destruct Hc as [_ Hc]. apply cells_ok_app in Hc as [_ Hc]. rewrite body_cells in Hc. apply cells_ok_app in Hc as [Hc _].
    unfold front_cells in Hc. do 10 (apply cells_ok_app in Hc as [_ Hc]).
    destruct Hs as (_ & Hs & _). change (DatFile_graphics (sample v)) with [Some (sample_Graphic v); None; Some (sample_Graphic v)] in Hc, Hs.
    cbn [slots flat_map] in Hc. apply cells_ok_app in Hc as [Hc _]. inversion Hs as [|? ? Hg _]; subst. cbn [on_some] in Hg.
    destruct (piece _ _ _ _ (c_parses w (sample_Graphic v) Hg) Hc) as (bg & _ & R). exists bg. intros r. apply eats_run. exact R. }
  destruct G as [bg G].
  clear - B W U G. unfold read_parts in W.
  destruct l.
  - (* ShortRead *) destruct (short_closing w) as [z Z].
    eapply (W (zeros 10 ++ bb ++ zeros 8 ++ zeros 4 ++ zeros 4 ++ zeros 2 ++ zeros 2 ++ zeros 35)).
    eapply finish_skip; [apply eats_front0|]. eapply finish_skip; [apply B|].
    eapply finish_skip; [apply eats_maps0|]. eapply finish_skip; [apply eats_effects0|].
    eapply finish_skip; [apply eats_headers0|]. eapply finish_skip; [apply eats_civs0|].
    eapply finish_skip; [apply eats_techs0|]. cbv beta.
    exact (finish_last _ (fun z => file_of _ _ _ _ _ _ _ _ z) _ _ _ _ Z).
  - (* TrailingNul *) eapply (W (zeros 10 ++ bb ++ zeros 8 ++ trailing_nul ++ zeros 4 ++ zeros 2 ++ zeros 2 ++ zeros 36 ++ [])).
    eapply finish_skip; [apply eats_front0|].
    eapply finish_skip; [apply B|].
    eapply finish_skip; [apply eats_maps0|].
    eapply (finish_bind _ _ _ _ _ _ [_] _ []); [apply eats_trailing_nul|].
    eapply finish_skip; [apply eats_headers0|].
    eapply finish_skip; [apply eats_civs0|].
    eapply finish_skip; [apply eats_techs0|].
    eapply finish_skip; [apply eats_closing0|]. eapply finish_eats, eats_ret.
  - (* NegativeCount *) eapply (W (zeros 10 ++ bb ++ zeros 8 ++ negative_count ++ zeros 4 ++ zeros 2 ++ zeros 2 ++ zeros 36 ++ [])).
    eapply finish_skip; [apply eats_front0|].
    eapply finish_skip; [apply B|].
    eapply finish_skip; [apply eats_maps0|].
    eapply (finish_bind _ _ _ _ _ _ [_] _ []); [apply eats_negative_count|].
    eapply finish_skip; [apply eats_headers0|].
    eapply finish_skip; [apply eats_civs0|].
    eapply finish_skip; [apply eats_techs0|].
    eapply finish_skip; [apply eats_closing0|]. eapply finish_eats, eats_ret.
  - (* PointerNot01 *) eapply (W (pointer2 bg ++ bb ++ zeros 8 ++ zeros 4 ++ zeros 4 ++ zeros 2 ++ zeros 2 ++ zeros 36 ++ [])).
    eapply (finish_bind _ _ _ _ _ _ [_] _ []); [apply eats_pointer2, G|].
    eapply finish_skip; [apply B|].
    eapply finish_skip; [apply eats_maps0|].
    eapply finish_skip; [apply eats_effects0|].
    eapply finish_skip; [apply eats_headers0|].
    eapply finish_skip; [apply eats_civs0|].
    eapply finish_skip; [apply eats_techs0|].
    eapply finish_skip; [apply eats_closing0|]. eapply finish_eats, eats_ret.
  - (* SNaNQuieted *) destruct (eats_snan w (zeros 4 ++ zeros 2 ++ zeros 2 ++ zeros 36 ++ [])) as [e E]. eapply (W (zeros 10 ++ bb ++ zeros 8 ++ snan ++ zeros 4 ++ zeros 2 ++ zeros 2 ++ zeros 36 ++ [])).
    eapply finish_skip; [apply eats_front0|].
    eapply finish_skip; [apply B|].
    eapply finish_skip; [apply eats_maps0|].
    eapply (finish_bind _ _ _ _ _ _ [_] _ []); [exact E|].
    eapply finish_skip; [apply eats_headers0|].
    eapply finish_skip; [apply eats_civs0|].
    eapply finish_skip; [apply eats_techs0|].
    eapply finish_skip; [apply eats_closing0|]. eapply finish_eats, eats_ret.
  - (* TerrainCount *) eapply (W (terrain_count ++ bb ++ zeros 8 ++ zeros 4 ++ zeros 4 ++ zeros 2 ++ zeros 2 ++ zeros 36 ++ [])).
    eapply (finish_bind _ _ _ _ _ _ [_] _ []); [apply eats_terrain_count|].
    eapply finish_skip; [apply B|].
    eapply finish_skip; [apply eats_maps0|].
    eapply finish_skip; [apply eats_effects0|].
    eapply finish_skip; [apply eats_headers0|].
    eapply finish_skip; [apply eats_civs0|].
    eapply finish_skip; [apply eats_techs0|].
    eapply finish_skip; [apply eats_closing0|]. eapply finish_eats, eats_ret.
Qed.
Example C38_case : exists bs x h out, DatFile_from_bytes (new_handler bs) = Ok (x, h) /\ h_losses h = [TerrainCount] /\ to_bytes x = Ok out /\ out <> bs.
Proof. apply (C38_each_loss VER_84). discriminate. Qed.
Definition all_of_this_file := (C38_each_loss, C38_case).
Print Assumptions all_of_this_file.
