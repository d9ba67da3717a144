(** * C27 (save then parse), C28 (failing save), C29 (crash during save). *)
From Verif Require Import Base PyInt PyFloat PyStr Versions Wire Layout Shape Spec FS Faults.
From Verif Require Import M_Tech M_DatFile Theory Sample Update Props_Slots Props_Errors Props_Range.
From Coq Require Import String ZifyBool.
Open Scope Z_scope.
Local Open Scope list_scope.
Local Notation length := List.length.

(** What is needed of zlib: decompression inverts compression ... *)
Definition inverts (inflate : bytes -> res bytes) (deflate : bytes -> bytes) : Prop := forall b, inflate (deflate b) = Ok b.
(** ... a compressed stream that lacks its end is refused ... *)
Definition detects_cuts (inflate : bytes -> res bytes) (deflate : bytes -> bytes) : Prop :=
  forall b k, (k < length (deflate b))%nat -> exists e, inflate (firstn k (deflate b)) = Err e.
(** ... and no stream is empty. *)
Definition never_empty (deflate : bytes -> bytes) : Prop := forall b, deflate b <> [].

Definition same_but (p : path) (f g : fs) : Prop := forall q, q <> p -> g q = f q.

Lemma set_same f p c : set_file f p c p = Some c.
Proof. unfold set_file. destruct (path_eq_dec p p); congruence. Qed.
Lemma set_other f p c q : q <> p -> set_file f p c q = f q.
Proof. unfold set_file. destruct (path_eq_dec q p); congruence. Qed.

(** The invariant of [save]. *)
Definition inv (deflate : bytes -> bytes) (x : DatFile) (p : path) (f : fs) (s : state) : Prop :=
  match fst s with
  | Begin => snd s = f
  | Open c => snd s = f /\ exists b, to_bytes x = Ok b /\ c = deflate b
  | Write rest => same_but p f (snd s) /\ exists b done, to_bytes x = Ok b /\ snd s p = Some done /\ deflate b = done ++ rest
  | End (Raised e) => snd s = f /\ to_bytes x = Err e
  | End OsFailed => (snd s = f /\ exists b, to_bytes x = Ok b)
      \/ (same_but p f (snd s) /\ exists b done rest, to_bytes x = Ok b /\ snd s p = Some done /\ deflate b = done ++ rest)
  | End Returned => same_but p f (snd s) /\ exists b, to_bytes x = Ok b /\ snd s p = Some (deflate b)
  end.
Lemma reach_inv deflate x p f s : reach deflate x p f s -> inv deflate x p f s.
Proof.
  intros R. induction R as [|s t R IH S]; [reflexivity|]. destruct S; unfold inv in *; cbn [fst snd] in *.
  - auto.
  - subst. eauto.
  - destruct IH as (-> & b & E & ->). split; [intros q Hq; apply set_other, Hq|]. exists b, []. rewrite set_same. auto.
  - destruct IH as (-> & b & E & ->). left. eauto.
  - destruct IH as (O & b & done & E & D & C). split.
    + intros q Hq. rewrite set_other by exact Hq. apply O, Hq.
    + exists b, (cur ++ firstn n rest). rewrite set_same. split; [exact E|]. split; [reflexivity|].
      rewrite <- app_assoc, firstn_skipn. congruence.
  - destruct IH as (O & b & done & E & D & C). right. split; [exact O|]. exists b, done, rest. auto.
  - destruct IH as (O & b & done & E & D & C). split; [exact O|]. exists b. rewrite app_nil_r in C. rewrite C. auto.
Qed.
Lemma saved_inv deflate x p f f' : saved deflate x p f f' ->
  same_but p f f' /\ exists b, to_bytes x = Ok b /\ f' p = Some (deflate b).
Proof. intros H. exact (reach_inv _ _ _ _ _ H). Qed.

(** ** C27 *)
Theorem C27_save_parse : forall deflate inflate, inverts inflate deflate ->
  forall x p f f', DatFile_wf x -> saved deflate x p f f' ->
  parse inflate f' p = Ok x /\ same_but p f f'.
Proof.
  intros deflate inflate Z x p f f' W S. apply saved_inv in S as (O & b & E & C). split; [|exact O].
  unfold parse. rewrite C, Z. cbn [rbind]. destruct (proj1 (wf_iff_survives x) W) as (b' & E' & F). congruence.
Qed.
(** The same for whatever object was loaded, well-formed or not as the input file may have
    been: and the original is still there. *)
Theorem C27_parse_save_parse : forall deflate inflate, inverts inflate deflate ->
  forall x p q f f', parse inflate f p = Ok x -> saved deflate x q f f' ->
  parse inflate f' q = Ok x /\ parse inflate f' p = Ok x.
Proof.
  intros deflate inflate Z x p q f f' P S.
  assert (W : DatFile_wf x).
  { unfold parse in P. destruct (f p) as [c|]; [|discriminate]. destruct (inflate c) as [d|]; [|discriminate].
    exact (from_bytes_wf d x P). }
  destruct (C27_save_parse _ _ Z x q f f' W S) as [H O]. split; [exact H|].
  destruct (path_eq_dec p q) as [->|N]; [exact H|]. unfold parse in *. rewrite (O p N). exact P.
Qed.
(** Saving can be completed, unless the operating system refuses; and its result does not
    depend on the pieces in which the bytes are written. *)
Lemma write_all deflate x p f g rest done : reach deflate x p f (Write rest, g) -> g p = Some done ->
  exists h, reach deflate x p f (Write [], h).
Proof.
  intros R D. destruct rest as [|a rest]; [eauto|].
  eexists. eapply r_step; [exact R|]. replace (@nil byte) with (skipn (length (a :: rest)) (a :: rest)) by apply skipn_all.
  apply s_write with (cur := done); [exact D|]. cbn [length]. lia.
Qed.
Theorem C27_can_save : forall deflate x p f, DatFile_wf x -> exists f', saved deflate x p f f'.
Proof.
  intros deflate x p f W. destruct (proj1 (wf_iff_survives x) W) as (b & E & _).
  assert (R : reach deflate x p f (Write (deflate b), set_file f p [])).
  { eapply r_step; [eapply r_step; [apply r_start|apply s_bytes, E]|apply s_open]. }
  destruct (write_all _ _ _ _ _ _ [] R (set_same f p [])) as (h & R'). exists h. eapply r_step; [exact R'|apply s_close].
Qed.
Theorem C27_saved_bytes : forall deflate x p f f', saved deflate x p f f' ->
  exists b, to_bytes x = Ok b /\ f' p = Some (deflate b).
Proof. intros deflate x p f f' S. apply (saved_inv _ _ _ _ _ S). Qed.
(** Saving twice is saving once; and a later save wins. *)
Theorem C27_twice : forall deflate x p f f1 f2, saved deflate x p f f1 -> saved deflate x p f1 f2 -> forall q, f2 q = f1 q.
Proof.
  intros deflate x p f f1 f2 S1 S2 q. apply saved_inv in S1 as (O1 & b1 & E1 & C1). apply saved_inv in S2 as (O2 & b2 & E2 & C2).
  destruct (path_eq_dec q p) as [->|N]; [congruence|apply O2, N].
Qed.
Theorem C27_last_wins : forall deflate x y p f f1 f2 g, saved deflate x p f f1 -> saved deflate y p f1 f2 ->
  saved deflate y p f g -> forall q, f2 q = g q.
Proof.
  intros deflate x y p f f1 f2 g S1 S2 S3 q. apply saved_inv in S1 as (O1 & _). apply saved_inv in S2 as (O2 & b2 & E2 & C2).
  apply saved_inv in S3 as (O3 & b3 & E3 & C3). destruct (path_eq_dec q p) as [->|N]; [congruence|].
  rewrite (O2 q N), (O1 q N), (O3 q N). reflexivity.
Qed.
(** Saves to different targets do not disturb each other. *)
Theorem C27_independent : forall deflate inflate, inverts inflate deflate ->
  forall x y p q f f1 f2, p <> q -> DatFile_wf x -> DatFile_wf y ->
  saved deflate x p f f1 -> saved deflate y q f1 f2 -> parse inflate f2 p = Ok x /\ parse inflate f2 q = Ok y.
Proof.
  intros deflate inflate Z x y p q f f1 f2 N Wx Wy S1 S2.
  destruct (C27_save_parse _ _ Z _ _ _ _ Wx S1) as [P1 _]. destruct (C27_save_parse _ _ Z _ _ _ _ Wy S2) as [P2 O].
  split; [|exact P2]. unfold parse in *. rewrite (O p N). exact P1.
Qed.

(** ** C28 *)
Theorem C28_failing_save : forall deflate x p f e s, to_bytes x = Err e -> reach deflate x p f s ->
  (s = (Begin, f) \/ s = (End (Raised e), f)).
Proof.
  intros deflate x p f e [ph g] E R. apply reach_inv in R. unfold inv in R. cbn [fst snd] in R.
  destruct ph as [|c|rest|[|e'|]].
  - subst. auto.
  - destruct R as (_ & b & E' & _). congruence.
  - destruct R as (_ & b & d & E' & _). congruence.
  - destruct R as (_ & b & E' & _). congruence.
  - destruct R as (-> & E'). right. congruence.
  - destruct R as [(_ & b & E')|(_ & b & d & r & E' & _)]; congruence.
Qed.
(** It does raise: [save] cannot get stuck. *)
Theorem C28_raises : forall deflate x p f e, to_bytes x = Err e -> reach deflate x p f (End (Raised e), f).
Proof. intros deflate x p f e E. eapply r_step; [apply r_start|]. apply s_raise, E. Qed.
Theorem C28_only_then : forall deflate x p f e g, reach deflate x p f (End (Raised e), g) -> g = f /\ to_bytes x = Err e.
Proof. intros deflate x p f e g R. exact (reach_inv _ _ _ _ _ R). Qed.
(** For instance: a research cost that does not fit 16 bits never costs the user the old file. *)
Theorem C28_bad_cost : forall deflate x p f s t c, In t (DatFile_techs x) -> In c (Tech_resource_costs t) ->
  ~ (-32768 <= ResearchResourceCost_amount c <= 32767) -> reach deflate x p f s -> snd s = f.
Proof.
  intros deflate x p f s t c Ht Hc N R. destruct (C23_cost_too_large x t c UNDEFINED Ht Hc N) as (e & E).
  destruct (C28_failing_save deflate x p f e s E R) as [->| ->]; reflexivity.
Qed.

(** ** C29 *)
Theorem C29_crash_states : forall deflate x p f s, reach deflate x p f s ->
  same_but p f (snd s) /\
  (snd s p = f p \/ exists b k, to_bytes x = Ok b /\ snd s p = Some (firstn k (deflate b))).
Proof.
  intros deflate x p f [ph g] R. apply reach_inv in R. unfold inv in R. cbn [fst snd] in *.
  assert (K : forall b d r, deflate b = d ++ r -> Some d = Some (firstn (length d) (deflate b))).
  { intros b d r ->. rewrite firstn_app, Nat.sub_diag, firstn_all, firstn_O, app_nil_r. reflexivity. }
  assert (Same : g = f -> same_but p f g /\ (g p = f p \/ exists b k, to_bytes x = Ok b /\ g p = Some (firstn k (deflate b)))).
  { intros ->. split; [intros q _; reflexivity|left; reflexivity]. }
  destruct ph as [|c|rest|[|e'|]].
  - auto.
  - apply Same, R.
  - destruct R as (O & b & d & E & D & C). split; [exact O|]. right. exists b, (length d). split; [exact E|]. rewrite D. eapply K, C.
  - destruct R as (O & b & E & D). split; [exact O|]. right. exists b, (length (deflate b)). rewrite firstn_all. auto.
  - apply Same, R.
  - destruct R as [(Q & _)|(O & b & d & r & E & D & C)]; [auto|]. split; [exact O|]. right. exists b, (length d). split; [exact E|]. rewrite D. eapply K, C.
Qed.
(** All of these states do occur: every prefix can be what is left. *)
Theorem C29_every_prefix : forall deflate x p f b k, to_bytes x = Ok b -> (k <= length (deflate b))%nat ->
  exists s, reach deflate x p f s /\ snd s p = Some (firstn k (deflate b)).
Proof.
  intros deflate x p f b k E L.
  assert (R : reach deflate x p f (Write (deflate b), set_file f p [])).
  { eapply r_step; [eapply r_step; [apply r_start|apply s_bytes, E]|apply s_open]. }
  destruct k as [|k].
  - eexists. split; [exact R|]. apply set_same.
  - eexists. split.
    + eapply r_step; [exact R|]. apply s_write with (cur := []) (n := S k); [apply set_same|lia].
    + apply set_same.
Qed.
(** So [save] is not atomic: whatever the target held is gone before the new content is there. *)
Theorem C29_not_atomic : forall deflate, never_empty deflate -> forall x p f old b,
  f p = Some old -> old <> [] -> to_bytes x = Ok b ->
  exists s, reach deflate x p f s /\ snd s p <> Some old /\ snd s p <> Some (deflate b).
Proof.
  intros deflate Z x p f old b _ N E. destruct (C29_every_prefix deflate x p f b 0 E (Nat.le_0_l _)) as (s & R & C).
  exists s. split; [exact R|]. rewrite C. cbn [firstn]. split; intros H; injection H as H; [congruence|]. exact (Z b (eq_sym H)).
Qed.
(** A crash never makes the target load as something else: after it, the target loads as
    before, or as the new object, or is refused. *)
Theorem C29_never_wrong : forall deflate inflate, inverts inflate deflate -> detects_cuts inflate deflate ->
  forall x p f s, DatFile_wf x -> reach deflate x p f s ->
  parse inflate (snd s) p = parse inflate f p \/ parse inflate (snd s) p = Ok x \/ exists e, parse inflate (snd s) p = Err e.
Proof.
  intros deflate inflate Z D x p f s W R. destruct (C29_crash_states _ _ _ _ _ R) as (_ & [H|(b & k & E & H)]).
  - left. unfold parse. rewrite H. reflexivity.
  - right. destruct (Nat.lt_ge_cases k (length (deflate b))) as [L|L].
    + right. destruct (D b k L) as (e & He). exists e. unfold parse. rewrite H, He. reflexivity.
    + left. unfold parse. rewrite H, firstn_all2 by exact L. rewrite Z. cbn [rbind].
      destruct (proj1 (wf_iff_survives x) W) as (b' & E' & F). congruence.
Qed.

(** ** The hypotheses on zlib are met by the stored-block codec. *)
Lemma byte_val_byte_of z : byte_val (byte_of z) = z mod 256.
Proof. apply byte_val_of. Qed.
Lemma block_len n : 0 <= n <= 65535 -> byte_val (byte_of n) + 256 * byte_val (byte_of (n / 256)) = n.
Proof.
  intros H. rewrite !byte_val_byte_of. assert (0 <= n / 256 < 256) by (split; [apply Z.div_pos; lia|apply Z.div_lt_upper_bound; lia]).
  rewrite (Z.mod_small (n / 256)) by lia. pose proof (Z.div_mod n 256). lia.
Qed.
Lemma unstore_block fuel last d rest : (length d <= Z.to_nat 65535)%nat ->
  unstore_blocks (S fuel) (block last d ++ rest) =
  if last then Ok d else rbind (unstore_blocks fuel rest) (fun b => Ok (d ++ b)).
Proof.
  intros L. unfold block. cbn [app unstore_blocks].
  assert (B : 0 <= Z.of_nat (length d) <= 65535) by lia.
  assert (B2 : 0 <= 65535 - Z.of_nat (length d) <= 65535) by lia.
  rewrite (block_len _ B), (block_len _ B2), byte_val_byte_of.
  replace (Z.of_nat (length d) + (65535 - Z.of_nat (length d)) =? 65535) with true by lia.
  rewrite app_length, Nat2Z.inj_add. replace (Z.of_nat (length d) + Z.of_nat (length rest) <? Z.of_nat (length d)) with false by lia.
  rewrite Nat2Z.id, firstn_app, skipn_app, Nat.sub_diag, firstn_all, skipn_all, firstn_O, app_nil_r. cbn [skipn app].
  destruct last; reflexivity.
Qed.
Lemma store_round n : forall b fuel, (length b <= n)%nat -> (length (store_blocks n b) <= fuel)%nat -> unstore_blocks fuel (store_blocks n b) = Ok b.
Proof.
  induction n as [|n IH]; intros b fuel Hb Hf.
  - destruct b; [|cbn in Hb; lia]. cbn [store_blocks] in *. destruct fuel as [|fuel]; [cbn in Hf; lia|].
    rewrite <- (app_nil_r (block true [])). rewrite unstore_block; [reflexivity|cbn; lia].
  - cbn [store_blocks] in *. destruct (Z.of_nat (length b) <=? 65535) eqn:L.
    + destruct fuel as [|fuel]; [cbn in Hf; lia|]. rewrite <- (app_nil_r (block true b)), unstore_block; [reflexivity|lia].
    + destruct fuel as [|fuel]; [rewrite app_length in Hf; cbn in Hf; lia|].
      rewrite unstore_block by (rewrite firstn_length; lia).
      rewrite IH; [cbn [rbind]; rewrite firstn_skipn; reflexivity|rewrite skipn_length; lia|].
      rewrite app_length in Hf. cbn [length block app] in Hf. lia.
Qed.
Lemma store_inverts : inverts unstore store.
Proof. intros b. unfold unstore, store. apply store_round; reflexivity. Qed.
Lemma firstn_app_le {A} k (a b : list A) : (k <= length a)%nat -> firstn k (a ++ b) = firstn k a.
Proof. intros H. rewrite firstn_app. replace (k - length a)%nat with O by lia. rewrite firstn_O, app_nil_r. reflexivity. Qed.
Lemma unstore_short fuel last d k : (length d <= Z.to_nat 65535)%nat -> (k < length (block last d))%nat ->
  unstore_blocks fuel (firstn k (block last d)) = Err ZlibError.
Proof.
  intros L K. destruct fuel as [|fuel]; [reflexivity|]. unfold block in *.
  do 5 (destruct k as [|k]; [reflexivity|]). cbn [app firstn unstore_blocks length] in *.
  assert (B : 0 <= Z.of_nat (length d) <= 65535) by lia.
  rewrite (block_len _ B).
  replace (Z.of_nat (length (firstn k d)) <? Z.of_nat (length d)) with true by (rewrite firstn_length; lia).
  rewrite !orb_true_r. reflexivity.
Qed.
Lemma store_cuts n : forall b k fuel, (length b <= n)%nat -> (k < length (store_blocks n b))%nat ->
  unstore_blocks fuel (firstn k (store_blocks n b)) = Err ZlibError.
Proof.
  induction n as [|n IH]; intros b k fuel Hb Hk.
  - destruct b; [|cbn in Hb; lia]. apply unstore_short; [cbn; lia|exact Hk].
  - cbn [store_blocks] in *. destruct (Z.of_nat (length b) <=? 65535) eqn:L.
    + apply unstore_short; [lia|exact Hk].
    + destruct (Nat.lt_ge_cases k (length (block false (firstn (Z.to_nat 65535) b)))) as [Lt|Ge].
      * rewrite firstn_app_le by lia. apply unstore_short; [rewrite firstn_length; lia|exact Lt].
      * rewrite firstn_app, firstn_all2 by exact Ge. destruct fuel as [|fuel]; [reflexivity|].
        rewrite unstore_block by (rewrite firstn_length; lia).
        rewrite IH; [reflexivity|rewrite skipn_length; lia|]. rewrite app_length in Hk. lia.
Qed.
Lemma store_detects : detects_cuts unstore store.
Proof. intros b k K. exists ZlibError. apply store_cuts; [reflexivity|exact K]. Qed.
Lemma store_nonempty : never_empty store.
Proof. intros b. unfold store. destruct (length b); cbn [store_blocks]; [discriminate|]. destruct (_ <=? _); discriminate. Qed.

Example C27_case : forall v f p, v <> UNDEFINED -> exists f', saved store (sample v) p f f' /\ parse unstore f' p = Ok (sample v).
Proof.
  intros v f p H. destruct (C27_can_save store (sample v) p f (sample_wf v H)) as (f' & S). exists f'. split; [exact S|].
  apply (C27_save_parse _ _ store_inverts _ _ _ _ (sample_wf v H) S).
Qed.
Lemma bad_time_slice x f p s : DatFile_time_slice x = 2147483648 -> reach store x p f s -> snd s = f.
Proof.
  intros T R. destruct (to_bytes x) as [b|e] eqn:E.
  - exfalso. unfold to_bytes in E. destruct (C23_file_values _ _ _ E) as (_ & _ & H).
    assert (H2 : -2147483648 <= DatFile_time_slice x <= 2147483647) by (apply H; left; reflexivity). clear - H2 T. lia.
  - destruct (C28_failing_save _ _ _ _ _ _ E R) as [->| ->]; reflexivity.
Qed.
Example C28_case : forall f p s, reach store (with_DatFile_time_slice 2147483648 (sample VER_84)) p f s -> snd s = f.
Proof. intros f p s. apply bad_time_slice. generalize (sample VER_84). intros []. reflexivity. Qed.
Example C29_case : forall v p f old, v <> UNDEFINED -> f p = Some old -> old <> [] ->
  exists s e, reach store (sample v) p f s /\ parse unstore (snd s) p = Err e.
Proof.
  intros v p f old H Hf N. destruct (dat_round_trip_bytes (sample v) (sample_wf v H)) as (b & E & _).
  destruct (C29_every_prefix store (sample v) p f b 0 E (Nat.le_0_l _)) as (s & R & C). exists s, ZlibError. split; [exact R|].
  unfold parse. rewrite C. reflexivity.
Qed.
Definition all_of_this_file := (C27_save_parse, C27_parse_save_parse, C27_can_save, C27_saved_bytes, C27_twice, C27_last_wins, C27_independent,
  C28_failing_save, C28_raises, C28_only_then, C28_bad_cost, C29_crash_states, C29_every_prefix, C29_not_atomic, C29_never_wrong,
  C27_case, C28_case, C29_case).
Print Assumptions all_of_this_file.
