(** * C42: what [dat-to-json] prints is JSON that says everything. *)
From Verif Require Import Base PyInt PyFloat PyStr Versions Wire Layout Shape Spec FS Dump Json.
From Verif Require Import FloatSpec M_DatFile Common Theory Sample JsonP JsonT Props_Dat Props_FS Props_Dump.
From Coq Require Import String.
Open Scope Z_scope.
Local Open Scope list_scope.

Lemma printed_inv repr inflate f p s : printed repr inflate f p = Ok s -> exists x, parse inflate f p = Ok x /\ DatFile_wf x /\ s = dumps repr 0 (shown x) ++ [10].
Proof.
  unfold printed, dat_to_json. destruct (parse inflate f p) as [x|] eqn:P; [|discriminate]. cbn [rbind]. intros [= <-]. exists x. split; [reflexivity|]. split; [|reflexivity].
  unfold parse in P. destruct (f p) as [c|]; [|discriminate]. destruct (inflate c) as [d|]; [|discriminate]. exact (from_bytes_wf d x P).
Qed.
(** A JSON reader gets the whole dump back if all floats of the file are finite; otherwise the
    text is not JSON. *)
Theorem C42_json : forall repr float_of, reads_back repr float_of -> forall inflate f p s, printed repr inflate f p = Ok s ->
  exists x, parse inflate f p = Ok x /\
    loads float_of s = if forallb finite (floats_in (shown x)) then Some (json_of (shown x)) else None.
Proof.
  intros repr float_of RB inflate f p s H. destruct (printed_inv _ _ _ _ _ H) as (x & P & W & ->). exists x. split; [exact P|].
  apply (loads_dumps repr float_of RB), texts_shown, W.
Qed.
(** The members of each object have different names, so that a reader that makes dictionaries keeps them all. *)
Theorem C42_names : forall repr float_of, reads_back repr float_of -> forall inflate f p s j, printed repr inflate f p = Ok s ->
  loads float_of s = Some j -> distinct j = true.
Proof.
  intros repr float_of RB inflate f p s j H L. destruct (C42_json _ _ RB _ _ _ _ H) as (x & P & E). rewrite E in L.
  destruct (forallb _ _); [|discriminate]. injection L as <-. apply keys_shown.
Qed.
(** Two files with the same text, if it is JSON, hold the same object. *)
Theorem C42_different : forall repr float_of, reads_back repr float_of -> forall inflate f p g q s, printed repr inflate f p = Ok s -> printed repr inflate g q = Ok s ->
  loads float_of s <> None -> exists x, parse inflate f p = Ok x /\ parse inflate g q = Ok x.
Proof.
  intros repr float_of RB inflate f p g q s H K N. destruct (C42_json _ _ RB _ _ _ _ H) as (x & P & E). destruct (C42_json _ _ RB _ _ _ _ K) as (y & Q & E').
  exists x. split; [exact P|]. rewrite Q. f_equal. apply C34_shown; [apply (parse_wf _ _ _ _ Q)|apply (parse_wf _ _ _ _ P)|]. apply json_of_inj. rewrite E in *.
  destruct (forallb _ _); [|congruence]. destruct (forallb _ (floats_in (shown y))); [|discriminate]. congruence.
Qed.
(** The text is printable ASCII and newlines, ends with a newline. *)
Theorem C42_ascii : forall repr, (forall x, finite x = true -> float_literal (repr x)) -> forall inflate f p s, printed repr inflate f p = Ok s ->
  (exists t, s = t ++ [10]) /\ (forall c, In c s -> c = 10 \/ 32 <= c <= 126).
Proof.
  intros repr L inflate f p s H. destruct (printed_inv _ _ _ _ _ H) as (x & P & W & ->). split; [eexists; reflexivity|]. intros c Hc.
  apply in_app_or in Hc as [Hc|[<-|[]]]; [|left; reflexivity]. pose proof (dumps_printable repr L (shown x) 0%nat) as D.
  rewrite forallb_forall in D. specialize (D c Hc). unfold printable in D. lia.
Qed.
(** The tool fails exactly when the file does not load. *)
Theorem C42_errors : forall repr inflate f p e, printed repr inflate f p = Err e <-> parse inflate f p = Err e.
Proof. intros. unfold printed. rewrite <- C34_errors. destruct (dat_to_json inflate f p); split; congruence. Qed.
(** Saved and printed. *)
Theorem C42_saved : forall repr float_of, reads_back repr float_of -> forall deflate inflate, inverts inflate deflate ->
  forall x p f f', DatFile_wf x -> saved deflate x p f f' ->
  exists s, printed repr inflate f' p = Ok s /\
    loads float_of s = if forallb finite (floats_in (shown x)) then Some (json_of (shown x)) else None.
Proof.
  intros repr float_of RB deflate inflate I x p f f' W S. destruct (C27_save_parse _ _ I _ _ _ _ W S) as [P _].
  assert (E : printed repr inflate f' p = Ok (dumps repr 0 (shown x) ++ [10])) by (unfold printed, dat_to_json; rewrite P; reflexivity).
  eexists. split; [exact E|]. destruct (C42_json _ _ RB _ _ _ _ E) as (y & Q & L). rewrite P in Q. injection Q as <-. exact L.
Qed.

Lemma sample_finite : forallb finite (floats_in (shown (sample VER_88))) = true.
Proof. vm_compute; reflexivity. Qed.
Example C42_case : forall f p, exists f' s, saved store (sample VER_88) p f f' /\ printed exact_repr unstore f' p = Ok s
  /\ loads exact_float s = Some (json_of (shown (sample VER_88))).
Proof.
  intros f p. assert (H : VER_88 <> UNDEFINED) by discriminate. destruct (C27_can_save store (sample VER_88) p f (sample_wf VER_88 H)) as (f' & S).
  destruct (C42_saved _ _ exact_reads_back _ _ store_inverts _ _ _ _ (sample_wf VER_88 H) S) as (s & P & L). exists f', s.
  split; [exact S|]. split; [exact P|]. rewrite L, sample_finite. reflexivity.
Qed.
(** A file whose dump is not JSON: a float of the file is a NaN. *)
Definition not_a_number : DatFile :=
  let x := sample VER_88 in
  {| DatFile_version := DatFile_version x; DatFile_float_ptr_terrain_tables := DatFile_float_ptr_terrain_tables x;
     DatFile_terrain_pass_graphic_pointers := DatFile_terrain_pass_graphic_pointers x; DatFile_terrain_restrictions := DatFile_terrain_restrictions x;
     DatFile_player_colours := DatFile_player_colours x; DatFile_sounds := DatFile_sounds x; DatFile_graphics := DatFile_graphics x;
     DatFile_terrain_block := DatFile_terrain_block x; DatFile_random_maps := DatFile_random_maps x;
     DatFile_effects := [{| M_Effect.Effect_name := [65]; M_Effect.Effect_effect_commands := [{| M_Effect.EffectCommand_type := 0; M_Effect.EffectCommand_a := 0; M_Effect.EffectCommand_b := 0;
       M_Effect.EffectCommand_c := 0; M_Effect.EffectCommand_d := f64_of_bits (2047 * 2 ^ 52 + 2 ^ 51) |}] |}];
     DatFile_unit_headers := DatFile_unit_headers x; DatFile_civs := DatFile_civs x; DatFile_techs := DatFile_techs x;
     DatFile_time_slice := DatFile_time_slice x; DatFile_unit_kill_rate := DatFile_unit_kill_rate x; DatFile_unit_kill_total := DatFile_unit_kill_total x;
     DatFile_unit_hit_point_rate := DatFile_unit_hit_point_rate x; DatFile_unit_hit_point_total := DatFile_unit_hit_point_total x;
     DatFile_razing_kill_rate := DatFile_razing_kill_rate x; DatFile_razing_kill_total := DatFile_razing_kill_total x; DatFile_tech_tree := DatFile_tech_tree x |}.
Lemma not_a_number_wf : DatFile_wf not_a_number.
Proof. split; [vm_compute; reflexivity|]. pose proof (sample_shape VER_88 ltac:(discriminate)) as S. exact S. Qed.
Example C42_not_json : forall f p, exists f' s, saved store not_a_number p f f' /\ printed exact_repr unstore f' p = Ok s /\ loads exact_float s = None.
Proof.
  intros f p. destruct (C27_can_save store not_a_number p f not_a_number_wf) as (f' & S).
  destruct (C42_saved _ _ exact_reads_back _ _ store_inverts _ _ _ _ not_a_number_wf S) as (s & P & L). exists f', s.
  split; [exact S|]. split; [exact P|]. rewrite L. vm_compute. reflexivity.
Qed.
Definition all_of_this_file := (C42_json, C42_names, C42_different, C42_ascii, C42_errors, C42_saved, C42_case, C42_not_json).
Print Assumptions all_of_this_file.
