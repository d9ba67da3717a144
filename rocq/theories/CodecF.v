(** * Proof framework: readers run on arbitrary input ([Fwd]).

    [Fwd v m K]: if [m], run in version [v] on anything, returns [x], then [K P x cs] for
    some cells [cs] and proposition [P] such that, if the run recorded no loss, [P] holds
    and the bytes consumed are exactly those of [cs]. *)
From Verif Require Import Base PyInt PyFloat PyStr PyStruct DataTypes Versions Common Wire Layout Codec CodecP.
From Coq Require Import String ZifyBool.
Open Scope Z_scope.
Local Open Scope list_scope.
Local Notation length := List.length.

(** The bytes between two states are those of the cells. *)
Definition took (h h' : handler) (cs : list cell) : Prop :=
  exists bs, encode cs = Some bs /\
    skipn (h_offset h) (h_content h) = bs ++ skipn (h_offset h') (h_content h) /\
    h_offset h' = (h_offset h + length bs)%nat.
(** What no reader changes, and that losses only accumulate. *)
Definition frame (h h' : handler) : Prop :=
  h_content h' = h_content h /\ h_version h' = h_version h /\
  exists ls, h_losses h' = ls ++ h_losses h.
Definition quiet (h h' : handler) : Prop := h_losses h' = h_losses h.
Definition Fwd {A} (v : Version) (m : rd A) (K : Prop -> A -> list cell -> Prop) : Prop :=
  forall h x h', h_version h = v -> m h = Ok (x, h') ->
    frame h h' /\ exists P cs, K P x cs /\ (quiet h h' -> P /\ took h h' cs).

Lemma frame_refl h : frame h h.
Proof. split; [reflexivity|]. split; [reflexivity|]. exists []. reflexivity. Qed.
Lemma frame_trans h1 h2 h3 : frame h1 h2 -> frame h2 h3 -> frame h1 h3.
Proof.
  intros (C1 & V1 & l1 & L1) (C2 & V2 & l2 & L2). split; [congruence|]. split; [congruence|].
  exists (l2 ++ l1). rewrite L2, L1, app_assoc. reflexivity.
Qed.
Lemma app_self_nil {A} (a b : list A) : a ++ b = b -> a = [].
Proof.
  intros H. apply (f_equal (@length A)) in H. rewrite app_length in H.
  destruct a; [reflexivity|cbn [length] in H; lia].
Qed.
Lemma quiet_split h1 h2 h3 : frame h1 h2 -> frame h2 h3 -> quiet h1 h3 -> quiet h1 h2 /\ quiet h2 h3.
Proof.
  unfold quiet. intros (_ & _ & l1 & L1) (_ & _ & l2 & L2) Q.
  rewrite L2, L1, app_assoc in Q. apply app_self_nil in Q. apply app_eq_nil in Q.
  destruct Q; subst. cbn [app] in *. split; assumption.
Qed.
Lemma took_nil h : took h h [].
Proof. exists []. split; [reflexivity|]. cbn [length app]. split; [reflexivity|lia]. Qed.
Lemma took_app h1 h2 h3 a b : h_content h2 = h_content h1 ->
  took h1 h2 a -> took h2 h3 b -> took h1 h3 (a ++ b).
Proof.
  intros C (b1 & E1 & S1 & O1) (b2 & E2 & S2 & O2). exists (b1 ++ b2).
  rewrite encode_app, E1, E2, app_length. rewrite C in S2. split; [reflexivity|].
  split; [rewrite S1, S2, app_assoc; reflexivity|lia].
Qed.

Lemma Fwd_weaken {A} v (m : rd A) (K K' : Prop -> A -> list cell -> Prop) :
  Fwd v m K -> (forall P x cs, K P x cs -> K' P x cs) -> Fwd v m K'.
Proof.
  intros H HK h x h' Hv E. destruct (H h x h' Hv E) as (F & P & cs & R & T). split; [exact F|]. eauto 6.
Qed.
Lemma Fwd_ext {A} v (m m' : rd A) K : (forall h, m h = m' h) -> Fwd v m K -> Fwd v m' K.
Proof. intros E H h x h' Hv R. rewrite <- E in R. exact (H h x h' Hv R). Qed.
Lemma Fwd_ret {A} v (x : A) (K : Prop -> A -> list cell -> Prop) : K True x [] -> Fwd v (ret x) K.
Proof.
  intros H h y h' Hv [= <- <-]. split; [apply frame_refl|]. exists True, [].
  split; [exact H|]. intros _. split; [exact I|apply took_nil].
Qed.
Lemma Fwd_raise {A} v e (K : Prop -> A -> list cell -> Prop) : Fwd v (raise e) K.
Proof. intros h y h' Hv [=]. Qed.
Lemma Fwd_bind {A B} v (m : rd A) (k : A -> rd B) J K :
  Fwd v m J -> (forall P a c, J P a c -> Fwd v (k a) (fun P' b cs => K (P /\ P') b (c ++ cs))) ->
  Fwd v (bind m k) K.
Proof.
  intros H1 H2 h x h' Hv E. unfold bind in E. destruct (m h) as [[a h1]|e] eqn:E1; [|discriminate].
  destruct (H1 h a h1 Hv E1) as (F1 & P1 & c1 & J1 & T1).
  assert (Hv1 : h_version h1 = v) by (destruct F1 as (_ & -> & _); exact Hv).
  destruct (H2 P1 a c1 J1 h1 x h' Hv1 E) as (F2 & P2 & c2 & K2 & T2).
  split; [eapply frame_trans; eassumption|]. exists (P1 /\ P2), (c1 ++ c2). split; [exact K2|].
  intros Q. destruct (quiet_split _ _ _ F1 F2 Q) as [Q1 Q2].
  destruct (T1 Q1) as [p1 t1]. destruct (T2 Q2) as [p2 t2].
  split; [auto|]. destruct F1 as (C1 & _). eapply took_app; eassumption.
Qed.
Lemma Fwd_bind0 {A B} v (m : rd A) (k : A -> rd B) (J : A -> list cell -> Prop) K :
  Fwd v m (fun _ a c => J a c) ->
  (forall a c, J a c -> Fwd v (k a) (fun P b cs => K P b (c ++ cs))) ->
  Fwd v (bind m k) K.
Proof.
  intros H1 H2 h x h' Hv E. unfold bind in E. destruct (m h) as [[a h1]|e] eqn:E1; [|discriminate].
  destruct (H1 h a h1 Hv E1) as (F1 & P1 & c1 & J1 & T1).
  assert (Hv1 : h_version h1 = v) by (destruct F1 as (_ & -> & _); exact Hv).
  destruct (H2 a c1 J1 h1 x h' Hv1 E) as (F2 & P2 & c2 & K2 & T2).
  split; [eapply frame_trans; eassumption|]. exists P2, (c1 ++ c2). split; [exact K2|].
  intros Q. destruct (quiet_split _ _ _ F1 F2 Q) as [Q1 Q2].
  destruct (T1 Q1) as [p1 t1]. destruct (T2 Q2) as [p2 t2].
  split; [exact p2|]. destruct F1 as (C1 & _). eapply took_app; eassumption.
Qed.
(** If the first part determines its cells. *)
Lemma Fwd_bind_det {A B} v (m : rd A) (k : A -> rd B) (ok : A -> Prop) (f : A -> list cell) K :
  Fwd v m (fun _ a c => ok a /\ c = f a) ->
  (forall a, ok a -> Fwd v (k a) (fun P b cs => K P b (f a ++ cs))) ->
  Fwd v (bind m k) K.
Proof. intros H1 H2. eapply Fwd_bind0; [exact H1|]. cbv beta. intros a c (O & ->). apply H2, O. Qed.
Lemma Fwd_assoc {A B C} v (m : rd A) (k1 : A -> rd B) (k2 : B -> rd C) K :
  Fwd v (bind m (fun a => bind (k1 a) k2)) K -> Fwd v (bind (bind m k1) k2) K.
Proof. apply Fwd_ext. intros h. unfold bind. destruct (m h) as [[a h']|]; reflexivity. Qed.
Lemma Fwd_ret_bind {A B} v (a : A) (k : A -> rd B) K : Fwd v (k a) K -> Fwd v (bind (ret a) k) K.
Proof. apply Fwd_ext. reflexivity. Qed.
Lemma Fwd_lift_bind {A B} v r (k : A -> rd B) K :
  (forall a, r = Ok a -> Fwd v (k a) K) -> Fwd v (bind (lift r) k) K.
Proof.
  intros H h x h' Hv E. unfold bind, lift in E. destruct r as [a|]; [|discriminate].
  exact (H a eq_refl h x h' Hv E).
Qed.
Lemma Fwd_get_version {B} v (k : Version -> rd B) K : Fwd v (k v) K -> Fwd v (bind get_version k) K.
Proof. intros H h x h' Hv E. unfold bind, get_version in E. rewrite Hv in E. exact (H h x h' Hv E). Qed.
Lemma Fwd_note_bind {B} v c l (k : unit -> rd B) (K : Prop -> B -> list cell -> Prop) :
  Fwd v (k tt) (fun P b cs => K (c = false /\ P) b cs) -> Fwd v (bind (note c l) k) K.
Proof.
  intros H. eapply Fwd_bind with (J := fun P _ cs => P = (c = false) /\ cs = []).
  - intros h x h' Hv E. unfold note in E. injection E as <- <-. destruct c.
    + split; [split; [reflexivity|]; split; [reflexivity|]; exists [l]; reflexivity|].
      exists (true = false), []. split; [auto|]. unfold quiet. cbn [h_losses]. intros Q.
      apply (app_self_nil [l]) in Q. discriminate.
    + split; [apply frame_refl|]. exists (false = false), []. split; [auto|]. intros _. split; [reflexivity|apply took_nil].
  - intros P [] cs [-> ->]. exact H.
Qed.

(** ** Slices *)
Lemma skipn_skipn_add {A} (a b : nat) (l : list A) : skipn a (skipn b l) = skipn (b + a) l.
Proof.
  revert l; induction b as [|b IH]; intros l; [reflexivity|].
  destruct l; [rewrite !skipn_nil; reflexivity|]. cbn [skipn plus]. apply IH.
Qed.
Lemma firstn_skipn_cut n k (l : bytes) : length (slice l k n) = n ->
  skipn k l = slice l k n ++ skipn (k + n) l.
Proof.
  unfold slice. intros H. rewrite <- skipn_skipn_add, firstn_skipn. reflexivity.
Qed.
(** [n] bytes are taken; on a quiet run exactly [n]. *)
Lemma consume_inv n h bs h' : consume_range n h = Ok (bs, h') ->
  frame h h' /\ (length bs <= n)%nat /\
  (quiet h h' -> length bs = n /\ skipn (h_offset h) (h_content h) = bs ++ skipn (h_offset h') (h_content h)
     /\ h_offset h' = (h_offset h + n)%nat).
Proof.
  unfold consume_range, bind, consume_slice, note, ret. cbn [h_content h_offset h_version h_losses].
  intros [= <- <-]. set (bs := slice (h_content h) (h_offset h) n).
  assert (L : (length bs <= n)%nat) by (unfold bs, slice; rewrite firstn_length; lia).
  destruct (Nat.ltb (length bs) n) eqn:E.
  - split; [split; [reflexivity|]; split; [reflexivity|]; exists [ShortRead]; reflexivity|].
    split; [exact L|]. unfold quiet. cbn [h_losses]. intros Q. apply (app_self_nil [ShortRead]) in Q. discriminate.
  - apply Nat.ltb_ge in E.
    split; [split; [reflexivity|]; split; [reflexivity|]; exists []; reflexivity|].
    split; [exact L|]. cbn [h_offset]. intros _. assert (length bs = n) by lia.
    split; [assumption|]. split; [|reflexivity]. apply firstn_skipn_cut. assumption.
Qed.
(** A slice converted by a function. *)
Lemma Fwd_slice {A} v n (g : bytes -> res A) (ok : A -> Prop) (f : A -> list cell) (loss : bytes -> bool) l :
  (forall bs a, (length bs <= n)%nat -> g bs = Ok a -> ok a) ->
  (forall bs a, length bs = n -> loss bs = false -> g bs = Ok a -> encode (f a) = Some bs) ->
  Fwd v (bs <- consume_range n ;; _ <- note (loss bs) l ;; lift (g bs)) (fun _ a c => ok a /\ c = f a).
Proof.
  intros H1 H2 h x h' Hv E. unfold bind in E.
  destruct (consume_range n h) as [[bs h1]|] eqn:Ec; [|discriminate].
  destruct (consume_inv n h bs h1 Ec) as (F1 & L1 & Q1).
  destruct (note (loss bs) l h1) as [[u h2]|] eqn:En; [|discriminate].
  unfold note in En. injection En as _ <-.
  unfold lift in E. destruct (g bs) as [a|] eqn:Eg; [|discriminate]. injection E as <- <-.
  assert (F2 : frame h1 (if loss bs then mkHandler (h_content h1) (h_offset h1) (h_version h1) (l :: h_losses h1) else h1)).
  { destruct (loss bs); [|apply frame_refl]. split; [reflexivity|]. split; [reflexivity|]. exists [l]. reflexivity. }
  split; [eapply frame_trans; eassumption|].
  exists True, (f a). split; [split; [eapply H1; eassumption|reflexivity]|].
  intros Q. split; [exact I|].
  destruct (quiet_split _ _ _ F1 F2 Q) as [Qa Qb]. destruct (Q1 Qa) as (L & S & O).
  destruct (loss bs) eqn:El.
  - unfold quiet in Qb. cbn [h_losses] in Qb. apply (app_self_nil [l]) in Qb. discriminate.
  - exists bs. split; [apply H2; assumption|]. split; [exact S|]. rewrite O, L. reflexivity.
Qed.
Lemma Fwd_slice' {A} v n (g : bytes -> res A) (ok : A -> Prop) (f : A -> list cell) :
  (forall bs a, (length bs <= n)%nat -> g bs = Ok a -> ok a) ->
  (forall bs a, length bs = n -> g bs = Ok a -> encode (f a) = Some bs) ->
  Fwd v (bs <- consume_range n ;; lift (g bs)) (fun _ a c => ok a /\ c = f a).
Proof.
  intros H1 H2. eapply Fwd_ext; [|apply (Fwd_slice v n g ok f (fun _ => false) ShortRead H1)].
  - intros h. reflexivity.
  - intros bs a L _. apply H2, L.
Qed.

Lemma Fwd_int v c n s : int_cell c n s ->
  Fwd v (bs <- consume_range n ;; ret (Int_from_bytes bs s)) (fun _ z cs => cell_ok (c z) = true /\ cs = [c z]).
Proof.
  intros Hi. apply (Fwd_slice' v n (fun bs => Ok (Int_from_bytes bs s)) (fun z => cell_ok (c z) = true) (fun z => [c z])).
  - intros bs a L [= <-]. rewrite (int_cell_ok _ _ _ _ Hi). eapply int_fits_mono; [exact L|]. apply int_from_bytes_fits.
  - intros bs a L [= <-]. rewrite encode_one, (int_cell_bytes _ _ _ _ Hi).
    unfold Int_from_bytes. pose proof (int_from_bytes_fits bs s) as Hf. rewrite L in Hf. rewrite Hf.
    rewrite <- L, le_bytes_int_from_bytes. reflexivity.
Qed.
Lemma Fwd_u8 v : Fwd v read_int_8 (fun _ z cs => cell_ok (U8 z) = true /\ cs = [U8 z]).
Proof. apply Fwd_int. constructor. Qed.
Lemma Fwd_i16 v : Fwd v (read_int_16 true) (fun _ z cs => cell_ok (I16 z) = true /\ cs = [I16 z]).
Proof. apply Fwd_int. constructor. Qed.
Lemma Fwd_u16 v : Fwd v (read_int_16 false) (fun _ z cs => cell_ok (U16 z) = true /\ cs = [U16 z]).
Proof. apply Fwd_int. constructor. Qed.
Lemma Fwd_i32 v : Fwd v (read_int_32 true) (fun _ z cs => cell_ok (I32 z) = true /\ cs = [I32 z]).
Proof. apply Fwd_int. constructor. Qed.
Lemma Fwd_u32 v : Fwd v (read_int_32 false) (fun _ z cs => cell_ok (U32 z) = true /\ cs = [U32 z]).
Proof. apply Fwd_int. constructor. Qed.
Lemma Fwd_f32 v : Fwd v read_float (fun _ x cs => cell_ok (F32 x) = true /\ cs = [F32 x]).
Proof.
  apply (Fwd_slice v 4 (Float_from_bytes LittleEndian) (fun x => cell_ok (F32 x) = true) (fun x => [F32 x])
           (fun bs => Nat.eqb (length bs) 4 && f32_snan (le_value bs)) SNaNQuieted).
  - intros bs a L. unfold Float_from_bytes. destruct (Nat.eqb_spec (length bs) 4); [|discriminate].
    intros [= <-]. cbn [order]. apply f32_exact_of_f32, le_value_4_range. assumption.
  - intros bs a L S. unfold Float_from_bytes. rewrite L in S |- *. cbn [Nat.eqb andb] in S |- *.
    intros [= <-]. cbn [order]. rewrite encode_one. cbv [cell_bytes]. rewrite little_endian_le_bytes.
    rewrite f32_of_f64_of_f32 by (try apply le_value_4_range; assumption).
    f_equal. rewrite <- L. apply le_bytes_le_value.
Qed.

(** ** Strings *)
Lemma ends_in_nul_snoc p b : ends_in_nul (p ++ [b]) = byte_eqb b (byte_of 0).
Proof. unfold ends_in_nul. rewrite last_last. reflexivity. Qed.
Lemma String_from_bytes_inv bs s : String_from_bytes bs = Ok s ->
  forallb scalar s = true /\ no_trailing_nul s = true /\ utf8 s = rstrip0 bs.
Proof.
  unfold String_from_bytes, bytes_decode. destruct (utf8_decode (rstrip0 bs)) as [s'|] eqn:E; [|discriminate].
  intros [= <-]. apply utf8_encode_decode in E. destruct E as [E1 E2]. split; [exact E1|].
  split; [|exact E2]. apply no_trailing_nul_utf8; [exact E1|]. rewrite E2. apply rstrip0_no_trailing.
Qed.

Lemma ends_in_nul_spec bs : ends_in_nul bs = false -> no_trailing0 bs.
Proof.
  intros H p b ->. rewrite ends_in_nul_snoc in H. unfold byte_eqb in H. rewrite Z.eqb_neq in H.
  rewrite byte_val_of in H. exact H.
Qed.
(** Other cells with the same bytes. *)
Lemma Fwd_reencode {A} v (m : rd A) J (K : Prop -> A -> list cell -> Prop) :
  Fwd v m J ->
  (forall P x cs, J P x cs -> exists cs', K P x cs' /\ (P -> encode cs' = encode cs)) -> Fwd v m K.
Proof.
  intros H HK h x h' Hv E. destruct (H h x h' Hv E) as (F & P & cs & R & T). split; [exact F|].
  destruct (HK P x cs R) as (cs' & R' & Ee). exists P, cs'. split; [exact R'|].
  intros Q. destruct (T Q) as (p & bs & E1 & E2). split; [exact p|]. exists bs. rewrite (Ee p). auto.
Qed.
Definition raw (bs : bytes) : list cell := map (fun b => U8 (byte_val b)) bs.
Lemma encode_raw bs : encode (raw bs) = Some bs.
Proof.
  induction bs as [|b bs IH]; [reflexivity|]. cbn [raw map]. rewrite encode_cons. unfold raw in IH. rewrite IH.
  rewrite (int_cell_bytes U8 1 false) by constructor. unfold int_fits. change (word 1) with 256.
  pose proof (byte_val_range b). replace (0 <=? byte_val b) with true by lia.
  replace (byte_val b <? 256) with true by lia. cbn [andb le_bytes oapp app]. rewrite byte_of_val. reflexivity.
Qed.
Lemma Fwd_raw v n : Fwd v (consume_range n) (fun P bs cs => (length bs <= n)%nat /\ P = (length bs = n) /\ cs = raw bs).
Proof.
  intros h x h' Hv E. destruct (consume_inv n h x h' E) as (F & L & Q). split; [exact F|].
  exists (length x = n), (raw x). split; [auto|]. intros q. destruct (Q q) as (l & S & O).
  split; [exact l|]. exists x. rewrite encode_raw. rewrite O, l in *. auto.
Qed.
Lemma Fwd_text v : Fwd v read_debug_string (fun _ s cs => cell_ok (Text s) = true /\ cs = [Text s]).
Proof.
  eapply Fwd_reencode with (J := fun P s cs => cell_ok (Text s) = true /\
     exists bs size, String_from_bytes bs = Ok s /\
       (P -> cs = [U16 2656; U16 size] ++ raw bs /\ size = Z.of_nat (length bs) /\ ends_in_nul bs = false)).
  - unfold read_debug_string.
    eapply (Fwd_bind_det v (read_int_16 false) _ _ (fun z => [U16 z])); [apply Fwd_u16|]. cbv beta. intros mark _.
    apply Fwd_lift_bind. intros [] Hm. unfold py_assert in Hm.
    destruct (mark =? 2656) eqn:E; [|discriminate]. apply Z.eqb_eq in E. subst mark. clear Hm.
    eapply (Fwd_bind_det v (read_int_16 false) _ _ (fun z => [U16 z])); [apply Fwd_u16|]. cbv beta. intros size Hsz.
    assert (Hs : 0 <= size <= 65535) by (apply within_spec; exact Hsz).
    eapply Fwd_bind; [apply Fwd_raw|]. cbv beta. intros P bs c (L & -> & ->).
    apply Fwd_note_bind. intros h x h' Hv R. unfold lift in R.
    destruct (String_from_bytes bs) as [s|] eqn:Es; [|discriminate]. injection R as <- <-.
    split; [apply frame_refl|]. exists True, []. split; [|intros _; split; [exact I|apply took_nil]].
    destruct (String_from_bytes_inv bs s Es) as (S1 & S2 & S3).
    pose proof (rstrip0_length bs) as L2. rewrite <- S3 in L2. split.
    + cbv [cell_ok]. rewrite S1, S2. cbn [andb]. apply within_spec. lia.
    + exists bs, size. split; [exact Es|]. intros (L' & N & _).
      split; [rewrite app_nil_r; reflexivity|]. split; [lia|exact N].
  - intros P s cs (Hok & bs & size & Es & HP). exists [Text s]. split; [auto|].
    intros p. destruct (HP p) as (-> & -> & N).
    destruct (String_from_bytes_inv bs s Es) as (S1 & S2 & S3).
    rewrite (rstrip0_id bs (ends_in_nul_spec bs N)) in S3. subst bs.
    apply ok_text in Hok. destruct Hok as (_ & _ & Hl).
    rewrite encode_app, encode_raw, (encode_cons (U16 2656)), !encode_one.
    rewrite !(int_cell_bytes U16 2 false) by constructor. rewrite Hl. change (int_fits 2 false 2656) with true.
    cbv [cell_bytes]. rewrite S1, fits_u16, Hl, little_endian_le_bytes. reflexivity.
Qed.
Lemma Fwd_padded v n : Fwd v (read_string n) (fun _ s cs => cell_ok (Padded n s) = true /\ cs = [Padded n s]).
Proof.
  apply (Fwd_slice' v n String_from_bytes (fun s => cell_ok (Padded n s) = true) (fun s => [Padded n s])).
  - intros bs s L E. destruct (String_from_bytes_inv bs s E) as (S1 & S2 & S3).
    pose proof (rstrip0_length bs) as L2. rewrite <- S3 in L2.
    cbv [cell_ok]. rewrite S1, S2. cbn [andb]. apply Nat.leb_le. lia.
  - intros bs s L E. destruct (String_from_bytes_inv bs s E) as (S1 & S2 & S3).
    rewrite encode_one. cbv [cell_bytes]. rewrite S1, S3. f_equal.
    destruct (rstrip0_spec bs) as [k Hk].
    assert (Hl : length bs = (length (rstrip0 bs) + k)%nat) by (rewrite Hk at 1; rewrite app_length, repeat_length; reflexivity).
    replace (n - length (rstrip0 bs))%nat with k by lia. symmetry. exact Hk.
Qed.

(** ** Loops *)
(** [Reads v m f S]: what a reader of elements with table [f] and shape [S] satisfies. *)
Definition Reads {A} (v : Version) (m : rd A) (f : A -> list cell) (S : A -> Prop) : Prop :=
  Fwd v m (fun P x cs => (P -> cs = f x) /\ cells_ok (f x) /\ S x).
Lemma Fwd_loop {A} v (m : rd A) f S n : Reads v m f S ->
  Fwd v (loop n m) (fun P l cs => (P -> cs = flat_map f l) /\ cells_ok (flat_map f l) /\ Forall S l /\ length l = n).
Proof.
  intros H. induction n as [|n IH]; cbn [loop].
  - apply Fwd_ret. repeat split; auto.
  - eapply Fwd_bind; [exact H|]. cbv beta. intros P a c (E1 & O1 & S1).
    eapply Fwd_bind; [exact IH|]. cbv beta. intros P' l c' (E2 & O2 & S2 & L2).
    apply Fwd_ret. cbn [flat_map]. rewrite cells_ok_app. repeat split; auto; [|cbn [length]; congruence].
    intros (p & p' & _). rewrite E1, E2, app_nil_r by assumption. reflexivity.
Qed.
(** The same with a side condition [Q] that each quiet element establishes. *)
Lemma Fwd_loop_gen {A} v (m : rd A) f S (Q : Prop) n :
  Fwd v m (fun P x cs => (P -> cs = f x /\ Q) /\ cells_ok (f x) /\ S x) ->
  Fwd v (loop n m) (fun P l cs => (P -> cs = flat_map f l /\ (l <> [] -> Q)) /\
    cells_ok (flat_map f l) /\ Forall S l /\ length l = n).
Proof.
  intros H. induction n as [|n IH]; cbn [loop].
  - apply Fwd_ret. repeat split; auto. congruence.
  - eapply Fwd_bind; [exact H|]. cbv beta. intros P a c (E1 & O1 & S1).
    eapply Fwd_bind; [exact IH|]. cbv beta. intros P' l c' (E2 & O2 & S2 & L2).
    apply Fwd_ret. cbn [flat_map]. rewrite cells_ok_app. repeat split; auto; [| |cbn [length]; congruence].
    + destruct H0 as (p & p' & _). destruct (E1 p) as [-> _]. destruct (E2 p') as [-> _]. rewrite app_nil_r. reflexivity.
    + intros _. destruct H0 as (p & _). apply (E1 p).
Qed.
Lemma Fwd_for_range {A} v (m : rd A) f S n : Reads v m f S ->
  Fwd v (for_range n m) (fun P l cs => (P -> cs = flat_map f l /\ n = count l) /\
    cells_ok (flat_map f l) /\ Forall S l /\ count l = Z.max 0 n).
Proof.
  intros H. unfold for_range. apply Fwd_note_bind. eapply Fwd_weaken; [apply Fwd_loop, H|]. cbv beta.
  intros P l cs (E & O & Sh & L). repeat split; auto; unfold count; intuition lia.
Qed.
Lemma Reads_single {A} v (m : rd A) (f : A -> cell) :
  Fwd v m (fun _ z cs => cell_ok (f z) = true /\ cs = [f z]) -> Reads v m (fun x => [f x]) (fun _ => True).
Proof.
  intros H. eapply Fwd_weaken; [exact H|]. cbv beta. intros P x cs (O & ->). split; [auto|].
  split; [|exact I]. apply cells_ok_cons. split; [exact O|reflexivity].
Qed.
Lemma Fwd_for_range_single {A} v (m : rd A) (f : A -> cell) n :
  Fwd v m (fun _ z cs => cell_ok (f z) = true /\ cs = [f z]) ->
  Fwd v (for_range n m) (fun P l cs => (P -> cs = map f l /\ n = count l) /\
    cells_ok (map f l) /\ count l = Z.max 0 n).
Proof.
  intros H. apply Reads_single in H. eapply Fwd_weaken; [apply Fwd_for_range, H|]. cbv beta.
  intros P l cs (E & O & _ & L). rewrite flat_map_single in *. auto.
Qed.
Lemma Fwd_u8_array v n : Fwd v (read_int_8_array n) (fun P l cs => (P -> cs = map U8 l /\ n = count l) /\
  cells_ok (map U8 l) /\ count l = Z.max 0 n).
Proof. apply Fwd_for_range_single, Fwd_u8. Qed.
Lemma Fwd_i16_array v n : Fwd v (read_int_16_array n) (fun P l cs => (P -> cs = map I16 l /\ n = count l) /\
  cells_ok (map I16 l) /\ count l = Z.max 0 n).
Proof. apply Fwd_for_range_single, Fwd_i16. Qed.
Lemma Fwd_i32_array v n : Fwd v (read_int_32_array n) (fun P l cs => (P -> cs = map I32 l /\ n = count l) /\
  cells_ok (map I32 l) /\ count l = Z.max 0 n).
Proof. apply Fwd_for_range_single, Fwd_i32. Qed.
Lemma Fwd_f32_array v n : Fwd v (read_float_array n) (fun P l cs => (P -> cs = map F32 l /\ n = count l) /\
  cells_ok (map F32 l) /\ count l = Z.max 0 n).
Proof. apply Fwd_for_range_single, Fwd_f32. Qed.
Lemma Fwd_fixed_class {A} v (m : rd (list A)) e k f S : is_loop k m e -> 0 <= k -> Reads v e f S ->
  Fwd v m (fun P l cs => (P -> cs = flat_map f l) /\ cells_ok (flat_map f l) /\ Forall S l /\ count l = k).
Proof.
  intros Hl Hk H. eapply Fwd_ext; [exact Hl|]. eapply Fwd_weaken; [apply Fwd_loop, H|]. cbv beta.
  intros P l cs (E & O & Sh & L). repeat split; auto. unfold count. lia.
Qed.
(** Determined by the number of elements. *)
Lemma Fwd_fixed {A} v (m : rd (list A)) e k (f : A -> cell) : is_loop k m e -> 0 <= k ->
  Fwd v e (fun _ z cs => cell_ok (f z) = true /\ cs = [f z]) ->
  Fwd v m (fun P l cs => (P -> cs = map f l) /\ cells_ok (map f l) /\ count l = k).
Proof.
  intros Hl Hk H. apply Reads_single in H. eapply Fwd_weaken; [eapply Fwd_fixed_class; eassumption|]. cbv beta.
  intros P l cs (E & O & _ & L). rewrite flat_map_single in *. auto.
Qed.
Lemma Fwd_class {A} v (m : rd A) K : Fwd v m K -> Fwd v (read_class m) K.
Proof.
  apply Fwd_ext. intros h. unfold read_class, bind, ret. destruct (m h) as [[? ?]|]; reflexivity.
Qed.

(** Optional slots. *)
Lemma Fwd_pointer_loop {A} v (m : rd A) f S : Reads v m f S ->
  forall k i ptrs, Fwd v (pointer_loop m ptrs i k) (fun P l cs =>
    (P -> cs = slots f l /\ firstn k (skipn i ptrs) = map flag_of l) /\ cells_ok (slots f l) /\
    Forall (fun o => match o with Some x => S x | None => True end) l /\ length l = k).
Proof.
  intros H. induction k as [|k IH]; intros i ptrs; cbn [pointer_loop].
  - apply Fwd_ret. repeat split; auto.
  - apply Fwd_lift_bind. intros p Hp. unfold py_index in Hp.
    destruct (nth_error ptrs i) as [p'|] eqn:Ep; [|discriminate]. injection Hp as ->.
    apply Fwd_note_bind.
    eapply Fwd_bind with (J := fun P o cs => (P -> cs = opt_cells f o) /\ cells_ok (opt_cells f o)
       /\ match o with Some x => S x | None => True end /\ truthy p = is_some o).
    + destruct (truthy p) eqn:Et.
      * eapply Fwd_bind; [exact H|]. cbv beta. intros P a c (E1 & O1 & S1). apply Fwd_ret. cbn [opt_cells is_some].
        repeat split; auto. intros (p1 & _). rewrite app_nil_r. auto.
      * apply Fwd_ret. repeat split; auto.
    + cbv beta. intros P o c (E1 & O1 & S1 & T1). eapply Fwd_bind; [apply IH|]. cbv beta.
      intros P' l c' (E2 & O2 & S2 & L2). apply Fwd_ret.
      change (slots f (o :: l)) with (opt_cells f o ++ slots f l). rewrite cells_ok_app.
      split; [|split; [auto|split; [constructor; auto|cbn [length]; congruence]]].
      intros (p1 & p2 & p3 & _). destruct (E2 p3) as [E2a E2b]. rewrite app_nil_r. split; [rewrite E1, E2a; auto|].
      pose proof (nth_error_split _ _ Ep) as (l1 & l2 & -> & Hi). subst i.
      rewrite skipn_app, skipn_all, Nat.sub_diag. cbn [skipn app firstn map].
      rewrite <- E2b. f_equal.
      * clear -T1 p1. unfold truthy in T1. destruct o; cbn [flag_of is_some] in *; lia.
      * f_equal. change (l1 ++ p :: l2) with (l1 ++ [p] ++ l2). rewrite app_assoc.
        rewrite skipn_app. rewrite skipn_all2 by (rewrite app_length; cbn [length]; lia).
        rewrite app_length. cbn [length]. replace (Datatypes.S (length l1) - (length l1 + 1))%nat with 0%nat by lia. reflexivity.
Qed.
Lemma Fwd_pointers {A} v (m : rd A) f S n ptrs : Reads v m f S -> count ptrs = Z.max 0 n ->
  Fwd v (read_class_array_with_pointers m n ptrs) (fun P l cs =>
    (P -> cs = slots f l /\ ptrs = map flag_of l) /\ cells_ok (slots f l) /\
    Forall (fun o => match o with Some x => S x | None => True end) l /\ count l = Z.max 0 n).
Proof.
  intros H Hn. unfold read_class_array_with_pointers. apply Fwd_note_bind.
  eapply Fwd_weaken; [apply Fwd_pointer_loop, H|]. cbv beta.
  intros P l cs (E & O & Sh & L). unfold count in *.
  split; [|split; [exact O|split; [exact Sh|lia]]].
  intros (_ & p). destruct (E p) as [E1 E2]. split; [exact E1|]. cbn [skipn] in E2.
  rewrite <- E2, firstn_all2; [reflexivity|lia].
Qed.
Lemma flags_ok {A} (l : list (option A)) : cells_ok (flags l).
Proof. induction l as [|[x|] l IH]; [reflexivity| |]; apply cells_ok_cons; (split; [reflexivity|exact IH]). Qed.

(** ** struct.unpack *)
Fixpoint all_cells (items : list fc) (Q : list pyval -> list cell -> Prop) : Prop :=
  match items with
  | [] => Q [] []
  | Fb :: r => forall z, cell_ok (I8 z) = true -> all_cells r (fun vs cs => Q (VInt z :: vs) (I8 z :: cs))
  | Fh :: r => forall z, cell_ok (I16 z) = true -> all_cells r (fun vs cs => Q (VInt z :: vs) (I16 z :: cs))
  | Fl :: r => forall z, cell_ok (I32 z) = true -> all_cells r (fun vs cs => Q (VInt z :: vs) (I32 z :: cs))
  | Ff :: r => forall x, cell_ok (F32s x) = true -> all_cells r (fun vs cs => Q (VFloat x :: vs) (F32s x :: cs))
  end.
Lemma all_cells_use items : forall Q vs, all_cells items Q -> vals_ok items vs ->
  exists cs, vs = map val_of cs /\ struct_cells items cs /\ Q vs cs.
Proof.
  induction items as [|k items IH]; intros Q [|w vs]; cbn [vals_ok]; try tauto.
  - intros H _. exists []. repeat split. exact H.
  - intros H [Hw Hvs]. destruct k, w as [z|x]; cbn [val_ok] in Hw; try tauto; cbn [all_cells] in H.
    + destruct (IH _ vs (H z ltac:(rewrite (int_cell_ok I8 1 true) by constructor; exact Hw)) Hvs) as (cs & -> & Hs & HQ).
      exists (I8 z :: cs). repeat split; auto. unfold struct_cells in *. cbn [map fc_of]. congruence.
    + destruct (IH _ vs (H z ltac:(rewrite (int_cell_ok I16 2 true) by constructor; exact Hw)) Hvs) as (cs & -> & Hs & HQ).
      exists (I16 z :: cs). repeat split; auto. unfold struct_cells in *. cbn [map fc_of]. congruence.
    + destruct (IH _ vs (H z ltac:(rewrite (int_cell_ok I32 4 true) by constructor; exact Hw)) Hvs) as (cs & -> & Hs & HQ).
      exists (I32 z :: cs). repeat split; auto. unfold struct_cells in *. cbn [map fc_of]. congruence.
    + destruct (IH _ vs (H x Hw) Hvs) as (cs & -> & Hs & HQ).
      exists (F32s x :: cs). repeat split; auto. unfold struct_cells in *. cbn [map fc_of]. congruence.
Qed.
Lemma Fwd_struct {B} v fmt items n (k : list pyval -> rd B) K :
  parse_fmt fmt = Some items ->
  all_cells items (fun vs cs => Fwd v (k vs) (fun P b c => K P b (cs ++ c))) ->
  Fwd v (bind (read_struct fmt n) k) K.
Proof.
  intros Hf H.
  eapply Fwd_bind0 with (J := fun vs cs => Fwd v (k vs) (fun P b c => K P b (cs ++ c))); [|auto].
  intros h vs h' Hv E. unfold read_struct, bind in E.
    destruct (consume_range n h) as [[bs h1]|] eqn:Ec; [|discriminate].
    destruct (consume_inv n h bs h1 Ec) as (F1 & L1 & Q1). unfold note, lift in E.
    destruct (struct_unpack fmt bs) as [w|] eqn:Eu; [|discriminate]. injection E as -> <-.
    assert (F2 : frame h1 (if struct_snan fmt bs then mkHandler (h_content h1) (h_offset h1) (h_version h1) (SNaNQuieted :: h_losses h1) else h1)).
    { destruct (struct_snan fmt bs); [|apply frame_refl]. split; [reflexivity|]. split; [reflexivity|].
      exists [SNaNQuieted]. reflexivity. }
    split; [eapply frame_trans; eassumption|].
    destruct (struct_unpack_inv fmt items bs vs Hf Eu) as (L & V & Pk).
    destruct (all_cells_use items _ vs H V) as (cs & -> & Hs & HQ).
    exists True, cs. split; [exact HQ|]. intros Q. split; [exact I|].
    destruct (quiet_split _ _ _ F1 F2 Q) as [Qa Qb]. destruct (Q1 Qa) as (L' & S & O).
    destruct (struct_snan fmt bs) eqn:El.
    + unfold quiet in Qb. cbn [h_losses] in Qb. apply (app_self_nil [SNaNQuieted]) in Qb. discriminate.
    + exists bs. pose proof (Lay_struct fmt items _ cs Hf eq_refl Hs) as HL. rewrite (Pk eq_refl) in HL.
      apply Lay_ok in HL. split; [exact HL|]. split; [exact S|]. rewrite O, L'. reflexivity.
Qed.
