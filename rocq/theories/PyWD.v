(** * [Civ.to_bytes] and [DatFile.to_bytes] *)
From Verif Require Import Base PyInt PyFloat PyStr PyStruct DataTypes Versions Common Py Source PyRep PyPure PyW PyWE Deep PyWC PyWS.
From Verif Require Import M_Sound M_PlayerColour M_Effect M_TerrainRestriction M_Graphic
  M_TerrainBlock M_RandomMaps M_Task M_UnitHeaders M_Unit M_Civ M_Tech M_TechTree M_DatFile.
From Coq Require Import String Ascii Lia.
Open Scope Z_scope.
Local Open Scope list_scope.

Ltac pointers l := self x_int_32_array; [lia|reflexivity|eapply x_pointers; [lia|var|reflexivity|look|reflexivity|reflexivity|seq|reflexivity]|seq].
(** civ.py:40-56 *)
Theorem Civ_w : writes 17 Civ_deep Civ_to_bytes.
Proof.
  start "Civ"%string src_Civ_to_bytes. rewrite run_return. unfold Civ_to_bytes. apply x_join; [lia|].
  repeat (apply Forall2_cons; [first [bytes|pointers 0]|]). constructor.
Qed.
#[export] Hint Resolve Civ_w : writes.

(** [Version(s)] *)
Definition version_string (v : Version) : string :=
  match v with
  | UNDEFINED => "UNDEFINED" | VER_71 => "VER 7.1" | VER_72 => "VER 7.2" | VER_73 => "VER 7.3" | VER_74 => "VER 7.4"
  | VER_75 => "VER 7.5" | VER_76 => "VER 7.6" | VER_77 => "VER 7.7" | VER_78 => "VER 7.8" | VER_84 => "VER 8.4" | VER_88 => "VER 8.8"
  end%string.
Lemma x_version m en e s : (1 <= m)%nat -> plain e = true -> assoc "Version" en = None ->
  d_eval source (d_call source m) "datfile" en e = Ret (DStr s) ->
  d_eval source (d_call source m) "datfile" en (ECall (EName "Version") [e])
  = match version_lookup s with Ok v => Ret (dver v) | Err f => Raise (Std f) end.
Proof.
  intros N P A E. erewrite call1; [|exact P|eapply x_global; [exact A|look|reflexivity]|exact E]. destruct m as [|m]; [lia|].
  unfold d_call; fold d_call. rewrite c_Version. change (c_sort src_Version) with Enum. cbv iota.
  change (c_members src_Version) with (map (fun v => (version_member v, KStr (version_string v))) all_versions).
  unfold version_lookup. induction all_versions as [|v l IH]; [reflexivity|]. cbn [map find snd].
  replace (lit (version_string v)) with (version_value v) by (destruct v; reflexivity).
  destruct (str_eqb (version_value v) s); [reflexivity|exact IH].
Qed.

(** datfile.py:120-160.  The argument is ignored: the version is the one of the file. *)
Lemma m_DatFile : find_method source "DatFile" "to_bytes" = Some src_DatFile_to_bytes. Proof. look. Qed.
Theorem DatFile_w x m pos v0 : (20 <= m)%nat -> (pos = [] \/ exists v, pos = [dver v]) ->
  d_call source m (DMeth (DatFile_deep x) "to_bytes") pos [] = outb (DatFile_to_bytes x v0).
Proof.
  intros N POS. pose (fs := fields (DatFile_deep x)). assert (G : genie "DatFile" fs) by genie. change (DatFile_deep x) with (DObj "DatFile" fs).
  destruct m as [|m]; [lia|]. rewrite (call_method _ _ _ _ _ _ _ m_DatFile). unfold d_apply, src_DatFile_to_bytes.
  cbn [f_module f_defaults f_params f_body].
  pose proof (x_member m "datfile" [] UNDEFINED eq_refl ltac:(look)) as UN. change (version_member UNDEFINED) with "UNDEFINED"%string in UN. rewrite UN. clear UN. cbn [obind].
  assert (B : forall v1 (l : list stmt), (r <+ d_block source (d_call source m) "datfile" l [("self"%string, DObj "DatFile" fs); ("version"%string, dver v1)];; Ret match snd r with Some v => v | None => DNone end)
      = run m "datfile" l [("self"%string, DObj "DatFile" fs); ("version"%string, dver v1)]) by reflexivity.
  assert (X : exists v1, bind_args ["self"; "version"]%string (DObj "DatFile" fs :: pos) [] [("version"%string, dver UNDEFINED)]
       = Some [("self"%string, DObj "DatFile" fs); ("version"%string, dver v1)]).
  { destruct POS as [->|[v ->]]; eexists; reflexivity. }
  destruct X as (v1 & ->). cbn [known_kw forallb oopt obind]. rewrite B. clear B POS pos.
  rewrite run_assign. erewrite x_version; [|lia|reflexivity|reflexivity|value].
  unfold DatFile_to_bytes. destruct (version_lookup (DatFile_version x)) as [v|e]; [|reflexivity]. cbn [obind rbind].
  rewrite run_assign. match goal with |- (v <+ ?e ;; _) = _ => assert (E : e = Ret (DInt (len (DatFile_terrain_restrictions x)))) by (rewrite <- (len_map TerrainRestriction_deep); value) end.
  rewrite E. clear E. cbn [obind].
  erewrite run_assert; [|apply x_chain; value]. rewrite !len_map. destruct (_ && _); [|reflexivity]. cbn [py_assert rbind].
  rewrite run_assign. cbn [d_eval dconst obind].
  destruct (DatFile_terrain_restrictions x) as [|t ts] eqn:T.
  - erewrite run_if; [|eapply x_field; [var|unfold fs; cbn [DatFile_deep fields assoc String.eqb Ascii.eqb Bool.eqb]; rewrite T; reflexivity]|reflexivity].
    cbn [map app nonempty rbind]. rewrite run_return. apply x_join; [lia|].
    repeat (apply Forall2_cons; [first [bytes|pointers 0|idtac]|]). all: try apply Forall2_nil.
    change (write_class_array TerrainRestriction_to_bytes [] v) with (write_class_array TerrainRestriction_to_bytes (map Some []) v).
    self x_class_array; [apply TerrainRestriction_w|lia|reflexivity| |seq|var].
    eapply x_field; [var|unfold fs; cbn [DatFile_deep fields assoc String.eqb Ascii.eqb Bool.eqb]; rewrite T; reflexivity].
  - erewrite run_if; [|eapply x_field; [var|unfold fs; cbn [DatFile_deep fields assoc String.eqb Ascii.eqb Bool.eqb]; rewrite T; reflexivity]|reflexivity].
    cbn [map app nonempty rbind py_index nth_error]. rewrite run_assign.
    erewrite x_len; [|lia|reflexivity|look|reflexivity| |].
    2:{ erewrite (x_first _ _ _ "DatFile" _ _ _ TerrainRestriction_deep _ (t :: ts)); [reflexivity|reflexivity|unfold fs; cbn [DatFile_deep fields assoc String.eqb Ascii.eqb Bool.eqb]; rewrite T; reflexivity|seq]. }
    2: reflexivity.
    cbn [obind]. rewrite len_map. rewrite run_return. apply x_join; [lia|].
    repeat (apply Forall2_cons; [first [bytes|pointers 0|idtac]|]). all: try apply Forall2_nil.
    change (write_class_array TerrainRestriction_to_bytes (Some t :: map Some ts) v) with (write_class_array TerrainRestriction_to_bytes (map Some (t :: ts)) v).
    self x_class_array; [apply TerrainRestriction_w|lia|reflexivity| |seq|var].
    eapply x_field; [var|unfold fs; cbn [DatFile_deep fields assoc String.eqb Ascii.eqb Bool.eqb]; rewrite T; reflexivity].
Qed.
