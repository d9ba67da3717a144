(** * C58: copies and new objects in programs of users.

    [copy.deepcopy(x.p)] is a tree with the same contents made of new objects: whatever is then done to
    the copy, the original stays what it is, and the other way round.  Two programs that use it and
    constructors, from files to files. *)
From Verif Require Import Base PyInt PyFloat PyStr PyStruct DataTypes Versions Common Py Source PyRep PyPure PyPureSim PyW PyWE Deep PyWC PyWS PyWD.
From Verif Require Import M_Civ M_Unit M_Effect M_DatFile Spec Shape Update Edit Sample Props_Dat Props_Source PyR PyRE PyTree PyLoad Props_Load Props_Readme Props_Programs.
From Verif Require Import Theory ConvertE Props_Convert FS Props_FS World Props_World PyKinds PyNew PyCopy PyEdit Props_Edits.
From Coq Require Import String Ascii Lia.
Open Scope Z_scope.
Local Open Scope list_scope.

(** [y = copy.deepcopy(x.p)] *)
Definition copy_stmt (y x : string) (p : list hop) : stmt := SAssign y (ECall (EAttr (EName "copy") "deepcopy") [path_text (EName x) p]).
(** Names that a program may use for its variables: not those of classes, and not [copy]. *)
Lemma two_clear x v y w : special x = false -> special y = false -> clear [(y, w); (x, v)].
Proof. intros SX SY. apply clear_bind; [exact SY|]. apply clear_bind; [exact SX|]. intros s _. reflexivity. Qed.

Section Copies.
Variables (n : nat) (h0 h : heap) (d : deep) (v : val) (x y : string) (p : list hop) (d0 : deep).
Hypothesis older : (List.length h0 <= List.length h)%nat.
Hypothesis tree : fresh_tree h0 h d v.
Hypothesis part : walk p d = Some (Ok d0).
Hypothesis can_copy : copyable d0 = true.
Hypothesis names : x <> y /\ special x = false /\ special y = false.
Notation run := (Py.block source (call source (S n)) "__main__").
Lemma copied : exists fp w t fpw, own h d v fp /\ NoDup fp /\ (forall q, In q fp -> (List.length h0 <= q < List.length h)%nat) /\
  own (h ++ t) d0 w fpw /\ NoDup fpw /\ (forall q, In q fpw -> (List.length h <= q)%nat) /\
  forall l, run (copy_stmt y x p :: l) [(x, v)] h = run l [(y, w); (x, v)] (h ++ t).
Proof.
  destruct tree as (fp & O & N & R). destruct names as (XY & SX & SY).
  assert (A : assoc x [(x, v)] = Some v) by (cbn [assoc]; rewrite String.eqb_refl; reflexivity).
  assert (CL : clear [(x, v)]) by (apply clear_bind; [exact SX|intros s _; reflexivity]).
  pose proof (value_runs n x (Copy p) d v fp [(x, v)] N A CL h O) as V. cbn [value_of] in V. rewrite part in V. cbn [tbind] in V. rewrite can_copy in V. cbn [made] in V. destruct V as (w & t & fpw & E & OW & NW & GW). cbn [value_text] in E.
  exists fp, w, t, fpw. repeat (split; [assumption|]). intros l. rewrite block_cons. unfold copy_stmt.
  assert (X : exec source (call source (S n)) "__main__" (SAssign y (ECall (EAttr (EName "copy") "deepcopy") [path_text (EName x) p])) [(x, v)] h = Ret (([(y, w); (x, v)], None), h ++ t)).
  { transitivity ((v0 <~ eval source (call source (S n)) "__main__" [(x, v)] (ECall (EAttr (EName "copy") "deepcopy") [path_text (EName x) p]) ;; mret ((y, v0) :: [(x, v)], @None val)) h); [reflexivity|]. unfold mbind. rewrite E. reflexivity. }
  unfold mbind. rewrite X. reflexivity.
Qed.
(** Changing the copy. *)
Theorem C58_copy_changed : forall cs d1, all_scoped y cs -> ~ In x (flat_map vars cs) -> does_all cs d0 = Some (Ok d1) ->
  exists en h' w, run (copy_stmt y x p :: texts y cs) [(x, v)] h = Ret ((en, None), h') /\ assoc x en = Some v /\ assoc y en = Some w /\
    fresh_tree h0 h' d v /\ fresh_tree h h' d1 w.
Proof.
  intros cs d1 SC XV DO. destruct copied as (fp & w & t & fpw & O & N & R & OW & NW & GW & E). destruct names as (XY & SX & SY).
  pose proof (changes_run n cs y d0 w fpw [(y, w); (x, v)] (h ++ t) SC OW NW ltac:(cbn [assoc]; rewrite String.eqb_refl; reflexivity) (two_clear _ _ _ _ SX SY)) as X. rewrite DO in X. cbn [carried] in X.
  destruct X as (en & h' & fp' & E' & A' & (R1 & R2 & R3 & R4) & L). rewrite app_length in L. exists en, h', w. rewrite E. split; [exact E'|].
  assert (KE : keeps fp h h').
  { intros i I. specialize (R i I). rewrite R4; [apply nth_error_app1; lia|rewrite app_length; lia|]. intros J. specialize (GW i J). lia. }
  split; [|split; [|split]].
  - rewrite A' by exact XV. cbn [assoc]. destruct (String.eqb_spec x y) as [X|_]; [destruct (XY X)|]. rewrite String.eqb_refl. reflexivity.
  - rewrite A'; [cbn [assoc]; rewrite String.eqb_refl; reflexivity|]. clear - SC. induction cs as [|c cs IH]; [intros []|]. destruct SC as [S1 S2]. cbn [flat_map]. intros I. apply in_app_or in I as [I|I]; [apply (scoped_free _ _ S1 I)|apply (IH S2 I)].
  - exists fp. split; [apply (own_keeps h); assumption|]. split; [exact N|]. intros q I. specialize (R q I). lia.
  - exists fp'. split; [exact R1|]. split; [exact R2|]. intros q I. split; [|apply (own_lt _ _ _ _ R1 q I)]. destruct (R3 q I) as [J|J]; [apply GW, J|]. rewrite app_length in J. lia.
Qed.
(** Changing the original. *)
Theorem C58_original_changed : forall cs d1, all_scoped x cs -> ~ In y (flat_map vars cs) -> does_all cs d = Some (Ok d1) ->
  exists en h' w, run (copy_stmt y x p :: texts x cs) [(x, v)] h = Ret ((en, None), h') /\ assoc x en = Some v /\ assoc y en = Some w /\
    fresh_tree h0 h' d1 v /\ fresh_tree h h' d0 w.
Proof.
  intros cs d1 SC YV DO. destruct copied as (fp & w & t & fpw & O & N & R & OW & NW & GW & E). destruct names as (XY & SX & SY).
  assert (AX : assoc x [(y, w); (x, v)] = Some v) by (cbn [assoc]; destruct (String.eqb_spec x y) as [X|_]; [destruct (XY X)|]; rewrite String.eqb_refl; reflexivity).
  pose proof (changes_run n cs x d v fp [(y, w); (x, v)] (h ++ t) SC (own_more _ _ _ _ _ O) N AX (two_clear _ _ _ _ SX SY)) as X. rewrite DO in X. cbn [carried] in X.
  destruct X as (en & h' & fp' & E' & A' & (R1 & R2 & R3 & R4) & L). rewrite app_length in L. exists en, h', w. rewrite E. split; [exact E'|].
  assert (KE : keeps fpw (h ++ t) h').
  { intros i I. apply R4; [apply (own_lt _ _ _ _ OW i I)|]. intros J. specialize (R i J). specialize (GW i I). lia. }
  split; [|split; [|split]].
  - rewrite A'; [exact AX|]. clear - SC. induction cs as [|c cs IH]; [intros []|]. destruct SC as [S1 S2]. cbn [flat_map]. intros I. apply in_app_or in I as [I|I]; [apply (scoped_free _ _ S1 I)|apply (IH S2 I)].
  - rewrite A' by exact YV. cbn [assoc]. rewrite String.eqb_refl. reflexivity.
  - exists fp'. split; [exact R1|]. split; [exact R2|]. intros q I. split; [|apply (own_lt _ _ _ _ R1 q I)]. destruct (R3 q I) as [J|J]; [apply (R q J)|]. rewrite app_length in J. lia.
  - exists fpw. split; [apply (own_keeps (h ++ t)); assumption|]. split; [exact NW|]. intros q I. split; [apply GW, I|]. pose proof (own_lt _ _ _ _ OW q I) as X. rewrite app_length in X. lia.
Qed.
End Copies.

(** ** A whole file and its copy *)
(** A loaded file is copied and the copy changed: saving the file still gives what it gave, and saving the
    copy gives the bytes of the changed record, or raises what it raises. *)
Theorem C58_file_and_copy : forall n h0 h x v y cs change z, (20 <= n)%nat -> (List.length h0 <= List.length h)%nat -> fresh_tree h0 h (DatFile_deep x) v ->
  y <> "data"%string -> special y = false -> all_scoped y cs -> ~ In "data"%string (flat_map vars cs) -> carries_out cs change -> change x = Ok z ->
  exists en h' w, Py.block source (call source n) "__main__" (copy_stmt y "data" [] :: texts y cs) [("data"%string, v)] h = Ret ((en, None), h') /\
    assoc "data"%string en = Some v /\ assoc y en = Some w /\
    agrees h' (user_save_file n h' v) (to_bytes x) /\ agrees h' (user_save_file n h' w) (to_bytes z).
Proof.
  intros n h0 h x v y cs change z N LE FT YD SY SC DV CO CH. destruct n as [|n]; [lia|].
  assert (DO : does_all cs (DatFile_deep x) = Some (Ok (DatFile_deep z))) by (rewrite (CO x), CH; reflexivity).
  destruct (C58_copy_changed n h0 h (DatFile_deep x) v "data" y [] (DatFile_deep x) LE FT eq_refl (DatFile_copyable x) (conj (fun E => YD (eq_sym E)) (conj eq_refl SY)) cs _ SC DV DO) as (en & h' & w & E & AX & AY & (fp & O & _) & (fpw & OW & _)).
  exists en, h', w. split; [exact E|]. split; [exact AX|]. split; [exact AY|]. split; apply C46_DatFile; try lia; eapply own_stands; eassumption.
Qed.

(** ** Programs that use copies and new objects *)
(** Copying the unit at one place of every civilisation to another place:
<<
    for civ in data.civs:
        civ.units[dst] = copy.deepcopy(civ.units[src])
>> *)
Definition copy_units (src dst : nat) : list PyEdit.change := [Each [Attr "civs"] "civ" [SetItem [Attr "units"] (Z.of_nat dst) (Copy [Attr "units"; Item src])]].
Definition copy_unit (src dst : nat) (c : Civ) : res Civ :=
  match nth_error (Civ_units c) src, nth_error (Civ_units c) dst with
  | Some u, Some _ => Ok (with_Civ_units (set_nth dst u (Civ_units c)) c)
  | _, _ => Err IndexError
  end.
Fixpoint in_all (src dst : nat) (l : list Civ) : res (list Civ) :=
  match l with [] => Ok [] | c :: l => rbind (copy_unit src dst c) (fun c' => rbind (in_all src dst l) (fun l' => Ok (c' :: l'))) end.
Definition with_copies (src dst : nat) (x : DatFile) : res DatFile := rbind (in_all src dst (DatFile_civs x)) (fun l => Ok (with_DatFile_civs l x)).
Lemma in_range {A} (l : list A) (i : nat) : ((0 <=? Z.of_nat i) && (Z.of_nat i <? len l))%bool = match nth_error l i with Some _ => true | None => false end.
Proof.
  unfold len. destruct (nth_error l i) eqn:E.
  - assert (i < List.length l)%nat by (apply nth_error_Some; congruence). apply andb_true_iff. rewrite Z.leb_le, Z.ltb_lt. lia.
  - apply nth_error_None in E. apply andb_false_iff. right. apply Z.ltb_ge. lia.
Qed.
Theorem C58_copy_units : forall src dst, carries_out (copy_units src dst) (with_copies src dst) /\
  forallb io_free_stmt (texts "data" (copy_units src dst)) = true /\ all_scoped "data" (copy_units src dst).
Proof.
  intros src dst. split; [|split; [reflexivity|cbn; intuition (discriminate || auto)]].
  intros x. unfold copy_units. cbn [does_all does tbind]. unfold DatFile_deep at 1. rewrite at_end_attr. cbn [assoc String.eqb Ascii.eqb Bool.eqb]. rewrite at_end_here. cbn [for_each].
  rewrite (each_res Civ_deep _ (copy_unit src dst) (in_all src dst)); [|clear x|reflexivity|reflexivity].
  - unfold with_copies. destruct (in_all src dst (DatFile_civs x)) as [l|e]; cbn [tbind rbind]; [|reflexivity]. cbn [put_field String.eqb Ascii.eqb Bool.eqb]. f_equal. f_equal. clear. destruct x. reflexivity.
  - intros c. cbn [value_of]. unfold Civ_deep at 1. cbn [walk assoc String.eqb Ascii.eqb Bool.eqb]. rewrite nth_map. unfold copy_unit. destruct (nth_error (Civ_units c) src) as [u|]; cbn [option_map tbind]; [|reflexivity].
    rewrite (cp_opt Unit_deep u Unit_copyable). cbn [tbind]. unfold Civ_deep at 1. rewrite at_end_attr. cbn [assoc String.eqb Ascii.eqb Bool.eqb]. rewrite at_end_here. cbn [set_at].
    destruct (Z.ltb_spec (Z.of_nat dst) 0) as [L|_]; [lia|]. rewrite (in_range (map (emb_opt Unit_deep) (Civ_units c)) dst), nth_map. destruct (nth_error (Civ_units c) dst) as [u0|]; cbn [option_map tbind]; [|reflexivity].
    rewrite Nat2Z.id, (map_set (emb_opt Unit_deep)). cbn [tbind put_field String.eqb Ascii.eqb Bool.eqb]. f_equal. f_equal. generalize (set_nth dst u (Civ_units c)). intros l. clear. destruct c. reflexivity.
Qed.
(** Adding a new command to an effect:
<<
    data.effects[i].effect_commands.append(EffectCommand(type=t, a=a, b=b, c=c, d=d))
>>
    with [d] written as a float. *)
Definition new_command (k : EffectCommand) : value :=
  New "EffectCommand" [("type", Const (KInt (EffectCommand_type k))); ("a", Const (KInt (EffectCommand_a k))); ("b", Const (KInt (EffectCommand_b k))); ("c", Const (KInt (EffectCommand_c k))); ("d", Const (KFloat (EffectCommand_d k)))]%string.
Definition add_command (i : nat) (k : EffectCommand) (x : DatFile) : res DatFile :=
  match nth_error (DatFile_effects x) i with
  | Some e => Ok (with_DatFile_effects (set_nth i (with_Effect_effect_commands (Effect_effect_commands e ++ [k]) e) (DatFile_effects x)) x)
  | None => Err IndexError
  end.
Definition command_changes (i : nat) (k : EffectCommand) : list PyEdit.change := [Append [Attr "effects"; Item i; Attr "effect_commands"] (new_command k)].
Theorem C58_new_command : forall i k, carries_out (command_changes i k) (add_command i k) /\
  forallb io_free_stmt (texts "data" (command_changes i k)) = true /\ all_scoped "data" (command_changes i k).
Proof.
  intros i k. split; [|split].
  - intros x. unfold command_changes. cbn [does_all does].
    assert (V : value_of (new_command k) (DatFile_deep x) = Some (Ok (EffectCommand_deep k))) by (destruct k; reflexivity). rewrite V. clear V.
    unfold DatFile_deep at 1. rewrite at_end_attr. cbn [assoc String.eqb Ascii.eqb Bool.eqb]. rewrite at_end_item.
    unfold add_command. destruct (nth_error (DatFile_effects x) i) as [e|]; [|reflexivity]. unfold Effect_deep at 1. rewrite at_end_attr. cbn [assoc String.eqb Ascii.eqb Bool.eqb]. rewrite at_end_here.
    cbn [add_last tbind]. change [EffectCommand_deep k] with (map EffectCommand_deep [k]). rewrite <- map_app. set (l := Effect_effect_commands e ++ [k]).
    cbn [put_field String.eqb Ascii.eqb Bool.eqb tbind]. replace (DObj "Effect" _) with (Effect_deep (with_Effect_effect_commands l e)) by (destruct e; reflexivity).
    rewrite (map_set Effect_deep). set (m := set_nth i _ _). f_equal. f_equal. clear. destruct x. reflexivity.
  - destruct k. reflexivity.
  - cbn. intuition auto.
Qed.

(** ** Cases *)
(** A file with 435 units in one civilisation, the last of which is copied to the first place. *)
Definition copied_file : DatFile := with_DatFile_civs [with_Civ_units (Some (sample_Unit VER_88 70) :: repeat None 433 ++ [Some (sample_Unit VER_88 70)]) (sample_Civ VER_88)] (sample VER_88).
Lemma copied_wf : DatFile_wf copied_file.
Proof.
  apply (with_civs_wf VER_88); [apply sample_wf; discriminate|apply sample_version; discriminate| |reflexivity].
  constructor; [|constructor]. split; [vm_compute; reflexivity|]. unfold Civ_shape. constructor; [apply sample_Unit_shape|]. apply Forall_app. split.
  - apply Forall_forall. intros u I. apply repeat_spec in I as ->. exact I.
  - constructor; [|constructor]. apply sample_Unit_shape.
Qed.
Example C58_case_copies : with_copies 434 0 kings_file = Ok copied_file.
Proof.
  unfold with_copies. replace (DatFile_civs kings_file) with [with_Civ_units (repeat None 434 ++ [Some (sample_Unit VER_88 70)]) (sample_Civ VER_88)] by reflexivity.
  cbn [in_all]. unfold copy_unit. replace (nth_error _ 434) with (Some (Some (sample_Unit VER_88 70))) by reflexivity. reflexivity.
Qed.
Example C58_case_run : forall inflate deflate, inverts inflate deflate -> forall b f o h, to_bytes kings_file = Ok b -> f (lit "a.dat") = Some (deflate b) ->
  exists s v h', wreach (user_program inflate deflate 21 h (patch "a.dat" "b.dat" (texts "data" (copy_units 434 0)))) f o s /\ w_pc s = Running (Stop (Ret (v, h'))) /\
    parse inflate (w_fs s) (lit "b.dat") = Ok copied_file /\ parse inflate (w_fs s) (lit "a.dat") = Ok kings_file.
Proof.
  intros inflate deflate Z b f o h TB F. destruct (C58_copy_units 434 0) as (CO & Q & SC).
  assert (FB : from_bytes b = Ok kings_file) by (destruct (C01_round_trip _ kings_wf) as (b' & TB' & FB' & _); congruence).
  assert (P : parse inflate f (lit "a.dat") = Ok kings_file) by (unfold parse; rewrite F, Z; exact FB).
  destruct (C55_ends inflate deflate 21 h "a.dat" "b.dat" (copy_units 434 0) _ (le_n _) Q SC CO f o) as (s & r & R & E).
  destruct (C55_program inflate deflate 21 h "a.dat" "b.dat" (copy_units 434 0) _ (le_n _) Q SC CO f o s R) as (_ & SB & H). rewrite E in H.
  destruct r as [[v h']|e].
  - exists s, v, h'. split; [exact R|]. split; [exact E|]. split.
    + apply (C55_loads_back inflate deflate Z 21 h "a.dat" "b.dat" (copy_units 434 0) _ f o s v h' kings_file copied_file (le_n _) Q SC CO P C58_case_copies copied_wf R E).
    + unfold parse. rewrite SB by (intros X; discriminate X). rewrite F, Z. exact FB.
  - exfalso. destruct H as (_ & e' & _ & H). unfold new_bytes in H. rewrite P in H. cbn [rbind] in H. rewrite C58_case_copies in H. cbn [rbind] in H. destruct (C01_round_trip _ copied_wf) as (b' & TB' & _). congruence.
Qed.
Example C58_case_changed : copied_file <> kings_file.
Proof.
  intros E. assert (X : map (fun c => map (option_map Unit_hit_points) (firstn 1 (Civ_units c))) (DatFile_civs copied_file) = map (fun c => map (option_map Unit_hit_points) (firstn 1 (Civ_units c))) (DatFile_civs kings_file)) by (rewrite E; reflexivity).
  vm_compute in X. discriminate X.
Qed.
(** One unit of a loaded file is copied and the copy changed. *)
Lemma part_there : walk [Attr "civs"; Item 0; Attr "units"; Item 434] (DatFile_deep kings_file) = Some (Ok (Unit_deep (sample_Unit VER_88 70))).
Proof.
  transitivity (walk [Item 0; Attr "units"; Item 434] (DList (map Civ_deep (DatFile_civs kings_file)))); [reflexivity|].
  transitivity (walk [Item 434] (DList (map (emb_opt Unit_deep) (repeat None 434 ++ [Some (sample_Unit VER_88 70)])))); [reflexivity|].
  cbn [walk]. rewrite nth_map. replace (nth_error _ 434) with (Some (Some (sample_Unit VER_88 70))) by reflexivity. reflexivity.
Qed.
Example C58_case_part : forall n h data x v h1, (18 <= n)%nat -> from_bytes data = Ok x -> x = kings_file -> user_load (S n) h data PNone PNone = Ret (v, h1) ->
  exists en h' w, Py.block source (call source (S n)) "__main__"
      (copy_stmt "unit" "data" [Attr "civs"; Item 0; Attr "units"; Item 434] :: texts "unit" [Assign [] "hit_points" (Const (KInt 1))]) [("data"%string, v)] h1 = Ret ((en, None), h') /\
    assoc "data"%string en = Some v /\ assoc "unit"%string en = Some w /\
    fresh_tree h h' (DatFile_deep kings_file) v /\ fresh_tree h1 h' (Unit_deep (with_Unit_hit_points 1 (sample_Unit VER_88 70))) w.
Proof.
  intros n h data x v h1 N FB -> UL. pose proof (C49_DatFile (S n) h data PNone PNone ltac:(lia)) as L. rewrite FB in L. destruct L as (v' & h' & E & LT & FT). rewrite E in UL. injection UL as -> ->.
  assert (LE : (List.length h <= List.length h1)%nat).
  { destruct FT as (fp & O & _ & R). unfold DatFile_deep in O. apply own_obj in O as (l & fs & fps & -> & _ & -> & _). specialize (R l (or_introl eq_refl)). lia. }
  apply (C58_copy_changed n h h1 (DatFile_deep kings_file) v "data" "unit" [Attr "civs"; Item 0; Attr "units"; Item 434] (Unit_deep (sample_Unit VER_88 70)) LE FT).
  - apply part_there.
  - apply Unit_copyable.
  - split; [discriminate|split; reflexivity].
  - cbn. intuition auto.
  - cbn. intuition auto.
  - cbn [does_all does value_of const_deep tbind]. rewrite at_end_here.
    assert (S : assign "hit_points" (DInt 1) (Unit_deep (sample_Unit VER_88 70)) = Some (Ok (Unit_deep (with_Unit_hit_points 1 (sample_Unit VER_88 70))))) by (generalize (sample_Unit VER_88 70); intros u; destruct u; reflexivity).
    rewrite S. reflexivity.
Qed.
(** The effects of the sample: a new command is one that was not there. *)
Example C58_case_command : exists y, add_command 0 (mkEffectCommand 0 4 (-1) (-1) f64_one) (sample VER_88) = Ok y /\
  map (fun e => List.length (Effect_effect_commands e)) (DatFile_effects (sample VER_88)) = [2; 2]%nat /\
  map (fun e => List.length (Effect_effect_commands e)) (DatFile_effects y) = [3; 2]%nat.
Proof. eexists. split; [reflexivity|]. split; vm_compute; reflexivity. Qed.

Definition all_of_this_file := (C58_copy_changed, C58_original_changed, C58_file_and_copy, C58_copy_units, C58_new_command).
Print Assumptions all_of_this_file.
