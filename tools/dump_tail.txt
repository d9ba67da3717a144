(** What the tool dumps of a loaded file ([shown]): from 8.4 on the dictionary of its fields; before, the
    same with the int 0 for each [invulnerability_level], which was 0.0. *)
Theorem C34_new : forall x v, file_version (DatFile_version x) = Some v -> since 84 v = true -> shown x = DatFile_asdict x.
Proof. intros x v F N. rewrite (shown_at x v F), N. reflexivity. Qed.
Theorem C34_old : forall x v, DatFile_wf x -> file_version (DatFile_version x) = Some v -> since 84 v = false ->
  shown x = int_levels (DatFile_asdict x) /\ float_levels (shown x) = DatFile_asdict x.
Proof.
  intros x v W F O. rewrite (shown_at x v F), O. split; [reflexivity|]. destruct (shown_wf x W) as (v' & F' & S). assert (v' = v) by congruence. subst v'. apply (settled_DatFile v x O S).
Qed.
(** It determines the loaded object ... *)
Theorem C34_shown : forall x y, DatFile_wf x -> DatFile_wf y -> shown x = shown y -> x = y.
Proof. intros x y Wx Wy E. apply C34_DatFile, (shown_asdict x y Wx Wy E). Qed.
Lemma parse_wf inflate f p x : parse inflate f p = Ok x -> DatFile_wf x.
Proof. unfold parse. destruct (f p) as [c|]; [|discriminate]. destruct (inflate c) as [d|]; [|discriminate]. apply from_bytes_wf. Qed.
Theorem C34_dump : forall inflate f g p q t, dat_to_json inflate f p = Ok t -> dat_to_json inflate g q = Ok t ->
  exists x, parse inflate f p = Ok x /\ parse inflate g q = Ok x /\ t = shown x.
Proof.
  intros inflate f g p q t H K. unfold dat_to_json in *.
  destruct (parse inflate f p) as [x|] eqn:P; [|discriminate]. destruct (parse inflate g q) as [y|] eqn:Q; [|discriminate].
  cbn [rbind] in *. assert (Hx : t = shown x) by congruence. assert (Hy : t = shown y) by congruence.
  exists x. split; [reflexivity|]. split; [|exact Hx]. rewrite (C34_shown x y (parse_wf _ _ _ _ P) (parse_wf _ _ _ _ Q)) by congruence. reflexivity.
Qed.
(** ... and, for files that load without loss and without rest, the uncompressed file itself. *)
Theorem C34_bytes : forall bs cs x y h k, DatFile_from_bytes (new_handler bs) = Ok (x, h) -> DatFile_from_bytes (new_handler cs) = Ok (y, k) ->
  h_losses h = [] -> h_offset h = List.length bs -> h_losses k = [] -> h_offset k = List.length cs ->
  shown x = shown y -> bs = cs.
Proof.
  intros bs cs x y h k Ex Ey L1 O1 L2 O2 E. apply C34_shown in E; [|apply (from_bytes_wf bs); unfold from_bytes; rewrite Ex; reflexivity|apply (from_bytes_wf cs); unfold from_bytes; rewrite Ey; reflexivity]. subst y.
  pose proof (proj1 (C04_byte_exact_whole _ _ _ Ex) (conj L1 O1)). pose proof (proj1 (C04_byte_exact_whole _ _ _ Ey) (conj L2 O2)). congruence.
Qed.
(** The tool fails exactly as loading does. *)
Theorem C34_errors : forall inflate f p e, dat_to_json inflate f p = Err e <-> parse inflate f p = Err e.
Proof. intros inflate f p e. unfold dat_to_json. destruct (parse inflate f p); cbn [rbind]; split; congruence. Qed.
Lemma get_time_slice x : get "time_slice" (shown x) = Some (TInt (DatFile_time_slice x)).
Proof. unfold shown. destruct (version_lookup (DatFile_version x)) as [v|]; [destruct (version_ge v VER_84)|]; reflexivity. Qed.
Example C34_case : forall v f p, v <> UNDEFINED -> exists f' t, saved store (sample v) p f f' /\ dat_to_json unstore f' p = Ok t
  /\ get "time_slice" t = Some (TInt (DatFile_time_slice (sample v))).
Proof.
  intros v f p H. destruct (C27_case v f p H) as (f' & S & P). exists f', (shown (sample v)). split; [exact S|].
  split; [unfold dat_to_json; rewrite P; reflexivity|]. apply get_time_slice.
Qed.
(** The two differ: the sample of 7.8 has a unit with this section. *)
Example C34_case_old : int_levels (DatFile_asdict (sample VER_78)) <> DatFile_asdict (sample VER_78) /\ since 84 VER_78 = false /\ file_version (DatFile_version (sample VER_78)) = Some VER_78.
Proof.
  split; [|split; reflexivity]. intros E. apply (f_equal (fun t => match get "civs" t with Some (TList (c :: _)) => match get "units" c with
    Some (TList l) => map (fun u => match get "creatable" u with Some c => get "invulnerability_level" c | None => None end) l | _ => [] end | _ => [] end)) in E. vm_compute in E. discriminate E.
Qed.
Definition all_of_this_file := (NAMES, C34_new, C34_old, C34_shown, C34_dump, C34_bytes, C34_errors, C34_case).
Print Assumptions all_of_this_file.
