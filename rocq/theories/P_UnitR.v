(** * What the unit reader returns on any input. *)
From Verif Require Import Base PyInt PyFloat PyStr PyStruct DataTypes Versions Common Wire Layout Shape.
From Verif Require Import Codec CodecP CodecF CodecC P_Simple P_Unit.
From Verif Require Import M_Task M_UnitHeaders M_Unit M_Civ M_Tech.
From Coq Require Import ZifyBool.
Open Scope Z_scope.
Local Open Scope list_scope.
Local Notation length := List.length.

Lemma Reads_f32 v : Reads v read_float (fun s => [F32 s]) any.
Proof.
  eapply Fwd_weaken; [apply Fwd_f32|]. cbv beta. intros P x cs [H ->]. split; [auto|]. split; [|exact I].
  apply cells_ok_cons. split; [exact H|exact cells_ok_nil].
Qed.
Lemma Reads_class {A} {tb : A -> Version -> res bytes} {fb lay shape arity} {C : Codec tb fb lay shape arity} v :
  Reads v (read_class fb) (lay v) (shape v).
Proof. apply Fwd_one. Qed.
Ltac fwd_opt L := eapply Fwd_bind; [ eapply Fwd_opt_read; L
  | cbv beta; let P := fresh "P" in let o := fresh "o" in let c := fresh "c" in intros P o c;
    let H := fresh "H" in intros H; split_ands ].
Ltac fwd_sections :=
  eapply Fwd_ext; [intros h; symmetry; apply sections_read|]; cbv beta iota;
  fwd_opt ltac:(apply Reads_f32); do 6 (fwd_opt ltac:(eapply Reads_class)).

Lemma attach_hot_key v hot o r : since 88 v = false -> on_some (Creatable_shape v) o ->
  (match o with
   | Some c =>
       let c := if nonempty (Creatable_train_locations c) then c
                else set_Creatable_train_locations
                       [{| TrainLocation_train_time := 0; TrainLocation_unit_id := -1;
                           TrainLocation_button_id := 0; TrainLocation_hot_key_id := 16000 |}] c in
       first <-- py_index (Creatable_train_locations c) 0 ;;;
       Ok (Some (set_Creatable_train_locations
                   (set_TrainLocation_hot_key_id hot first :: tl (Creatable_train_locations c)) c))
   | None => Ok None
   end) = Ok r -> r = option_map (with_hot_keys hot) o.
Proof.
  intros V H E. destruct o as [c|]; [|cbn in *; congruence]. destruct H as [(_ & _ & Hl & _) _].
  destruct (one_element _ (Hl V)) as [t Et]. rewrite Et in E. cbn in E. rewrite Et in E. cbn in E.
  injection E as <-. destruct c; cbn in *. subst. reflexivity.
Qed.
Lemma with_hot_keys_stored v b h o : since 88 v = false ->
  stored b (Creatable_layout v) (option_map (with_hot_keys h) o) = stored b (Creatable_layout v) o.
Proof.
  intros V. unfold stored. destruct b; [|reflexivity]. destruct o; [|reflexivity]. apply with_hot_keys_layout, V.
Qed.

Lemma Unit_reads v : Reads v Unit_from_bytes (Unit_layout v) (Unit_shape v).
Proof.
  unfold Reads, Unit_from_bytes. fwd_step. rewrite ge_88. destruct (since 88 v) eqn:V.
  - unfold Unit_from_bytes_88. repeat fwd_step. fwd_sections.
    apply Fwd_lift_bind. intros hk Ehk. apply Fwd_ret.
    unfold Unit_layout, Unit_sections_layout. rewrite V. cbn. fwd_end0.
    unfold Unit_shape, Unit_arity, Unit_sections_shape, Unit_hot_key_shape, train_hot_key. rewrite V. cbn.
    repeat match goal with |- _ /\ _ => split end; try assumption; try reflexivity.
    + destruct o4 as [cr|]; [|congruence]. destruct (Creatable_train_locations cr); cbn in Ehk; congruence.
    + destruct o4 as [cr|]; [|exact I]. apply H30.
  - unfold Unit_from_bytes_84. repeat fwd_step. fwd_sections.
    apply Fwd_lift_bind. intros hk Ehk. apply (attach_hot_key v _ _ _ V H30) in Ehk. subst hk. apply Fwd_ret.
    unfold Unit_layout, Unit_sections_layout. rewrite V. cbn. rewrite with_hot_keys_stored by exact V. fwd_end0.
    unfold Unit_shape, Unit_arity, Unit_sections_shape, Unit_hot_key_shape, train_hot_key. rewrite V. cbn.
    repeat match goal with |- _ /\ _ => split end; try assumption; try reflexivity.
    + destruct o4; assumption.
    + intros Hn. destruct o4 as [cr|]; [|exfalso; apply Hn; reflexivity]. destruct H30 as [(_ & _ & Hl & _) _]. cbn.
      destruct (one_element _ (Hl V)) as [t ->]. reflexivity.
    + destruct o4 as [cr|]; [|exact I]. destruct H30 as [Hc _]. unfold Creatable_core_shape in *. destruct cr; cbn in *.
      unfold count in *. rewrite map_length. exact Hc.
Qed.

#[global] Instance Unit_codec : Codec Unit_to_bytes Unit_from_bytes Unit_layout Unit_shape Unit_arity.
Proof.
  split.
  - intros v x H. apply H.
  - apply Unit_lay.
  - apply Unit_parses.
  - apply Unit_reads.
Qed.

