(** * Python [str.encode()] / [bytes.decode()] (UTF-8, errors='strict') and
    [bytes.rstrip(b'\0')].

    CPython built-ins used by /repo/src/genieutils/datatypes.py:7 and :11 and by
    common.py:39. *)
From Verif Require Import Base.
From Coq Require Import ZArith Lia ZifyBool.
Open Scope Z_scope.
Ltac Zify.zify_post_hook ::= Z.to_euclidean_division_equations.

Definition surrogate (c : Z) : bool := (55296 <=? c) && (c <=? 57343).   (* U+D800..U+DFFF *)
(** Unicode scalar values: what strict UTF-8 can carry. *)
Definition scalar (c : Z) : bool := (0 <=? c) && (c <=? 1114111) && negb (surrogate c).

(** UTF-8 bytes of one scalar value. *)
Definition utf8_char (c : Z) : bytes :=
  if c <? 128 then [byte_of c]
  else if c <? 2048 then [byte_of (192 + c / 64); byte_of (128 + c mod 64)]
  else if c <? 65536 then
    [byte_of (224 + c / 4096); byte_of (128 + (c / 64) mod 64); byte_of (128 + c mod 64)]
  else [byte_of (240 + c / 262144); byte_of (128 + (c / 4096) mod 64);
        byte_of (128 + (c / 64) mod 64); byte_of (128 + c mod 64)].

(** UTF-8 bytes of a string of scalar values. *)
Definition utf8 (s : pystr) : bytes := flat_map utf8_char s.

(** [s.encode()]: raises UnicodeEncodeError on surrogates.  (Lists containing
    integers that are no code points at all do not occur in Python; they are
    rejected the same way.) *)
Definition str_encode (s : pystr) : res bytes :=
  if forallb scalar s then Ok (utf8 s) else Err UnicodeEncodeError.

Definition cont (b : byte) : bool := (128 <=? byte_val b) && (byte_val b <=? 191).

Definition ocons (c : Z) (o : option pystr) : option pystr :=
  match o with Some s => Some (c :: s) | None => None end.

(** Strict UTF-8 decoding: no overlong forms, no surrogates, nothing above U+10FFFF. *)
Fixpoint utf8_decode (bs : bytes) : option pystr :=
  match bs with
  | [] => Some []
  | b0 :: r0 =>
      let v0 := byte_val b0 in
      if v0 <? 128 then ocons v0 (utf8_decode r0)
      else if (192 <=? v0) && (v0 <? 224) then
        match r0 with
        | b1 :: r1 =>
            let c := (v0 - 192) * 64 + (byte_val b1 - 128) in
            if cont b1 && (128 <=? c) then ocons c (utf8_decode r1) else None
        | _ => None
        end
      else if (224 <=? v0) && (v0 <? 240) then
        match r0 with
        | b1 :: b2 :: r2 =>
            let c := (v0 - 224) * 4096 + (byte_val b1 - 128) * 64 + (byte_val b2 - 128) in
            if cont b1 && cont b2 && (2048 <=? c) && negb (surrogate c)
            then ocons c (utf8_decode r2) else None
        | _ => None
        end
      else if (240 <=? v0) && (v0 <? 248) then
        match r0 with
        | b1 :: b2 :: b3 :: r3 =>
            let c := (v0 - 240) * 262144 + (byte_val b1 - 128) * 4096
                     + (byte_val b2 - 128) * 64 + (byte_val b3 - 128) in
            if cont b1 && cont b2 && cont b3 && (65536 <=? c) && (c <=? 1114111)
            then ocons c (utf8_decode r3) else None
        | _ => None
        end
      else None
  end.

(** [bs.decode()] *)
Definition bytes_decode (bs : bytes) : res pystr :=
  match utf8_decode bs with Some s => Ok s | None => Err UnicodeDecodeError end.

(** [bs.rstrip(b'\0')]: drop the maximal run of trailing zero bytes. *)
Fixpoint rstrip0 (bs : bytes) : bytes :=
  match bs with
  | [] => []
  | b :: r => match rstrip0 r with
              | [] => if byte_val b =? 0 then [] else [b]
              | r' => b :: r'
              end
  end.

(** ** Facts *)
Lemma utf8_app s1 s2 : utf8 (s1 ++ s2) = utf8 s1 ++ utf8 s2.
Proof. unfold utf8. apply flat_map_app. Qed.

Lemma utf8_char_decode c r : scalar c = true -> utf8_decode (utf8_char c ++ r) = ocons c (utf8_decode r).
Proof.
  unfold scalar, surrogate. intros Hc. unfold utf8_char.
  destruct (c <? 128) eqn:E1; [|destruct (c <? 2048) eqn:E2; [|destruct (c <? 65536) eqn:E3]];
    cbn [app utf8_decode]; unfold cont; rewrite !byte_val_of.
  - rewrite Z.mod_small by lia. rewrite E1. reflexivity.
  - rewrite (Z.mod_small (192 + c / 64)) by lia. rewrite (Z.mod_small (128 + c mod 64)) by lia.
    cbv zeta.
    replace ((192 + c / 64 - 192) * 64 + (128 + c mod 64 - 128)) with c by lia.
    match goal with |- (if ?a then _ else if ?b then if ?d then _ else _ else _) = _ =>
      replace a with false by lia; replace b with true by lia; replace d with true by lia end.
    reflexivity.
  - rewrite (Z.mod_small (224 + c / 4096)) by lia.
    rewrite (Z.mod_small (128 + (c / 64) mod 64)) by lia.
    rewrite (Z.mod_small (128 + c mod 64)) by lia.
    cbv zeta.
    replace ((224 + c / 4096 - 224) * 4096 + (128 + (c / 64) mod 64 - 128) * 64 + (128 + c mod 64 - 128)) with c by lia.
    unfold surrogate.
    match goal with |- (if ?a then _ else if ?b then _ else if ?d then if ?e then _ else _ else _) = _ =>
      replace a with false by lia; replace b with false by lia; replace d with true by lia; replace e with true by lia end.
    reflexivity.
  - rewrite (Z.mod_small (240 + c / 262144)) by lia.
    rewrite (Z.mod_small (128 + (c / 4096) mod 64)) by lia.
    rewrite (Z.mod_small (128 + (c / 64) mod 64)) by lia.
    rewrite (Z.mod_small (128 + c mod 64)) by lia.
    cbv zeta.
    replace ((240 + c / 262144 - 240) * 262144 + (128 + (c / 4096) mod 64 - 128) * 4096
             + (128 + (c / 64) mod 64 - 128) * 64 + (128 + c mod 64 - 128)) with c by lia.
    match goal with |- (if ?a then _ else if ?b then _ else if ?d then _ else if ?f then if ?e then _ else _ else _) = _ =>
      replace a with false by lia; replace b with false by lia; replace d with false by lia;
      replace f with true by lia; replace e with true by lia end.
    reflexivity.
Qed.

Lemma utf8_decode_encode s : forallb scalar s = true -> utf8_decode (utf8 s) = Some s.
Proof.
  induction s as [|c s IH]; [reflexivity|].
  cbn [forallb]. intros H. apply andb_prop in H. destruct H as [Hc Hs].
  change (utf8 (c :: s)) with (utf8_char c ++ utf8 s).
  rewrite utf8_char_decode by exact Hc. rewrite IH by exact Hs. reflexivity.
Qed.

Lemma byte_of_eq z b : byte_val b = z -> byte_of z = b.
Proof. intros <-. apply byte_of_val. Qed.

Lemma ocons_Some c o s : ocons c o = Some s -> exists s', o = Some s' /\ s = c :: s'.
Proof. destruct o as [s'|]; simpl; [|discriminate]. intros [= <-]. eauto. Qed.

(** Whatever decodes is the UTF-8 form of its result. *)
Lemma utf8_encode_decode bs s : utf8_decode bs = Some s -> forallb scalar s = true /\ utf8 s = bs.
Proof.
  remember (length bs) as n eqn:Hn. assert (Hle : (length bs <= n)%nat) by lia. clear Hn.
  revert bs s Hle; induction n as [|n IH]; intros bs s Hle H.
  - destruct bs; [|simpl in Hle; lia]. simpl in H. injection H as <-. split; reflexivity.
  - destruct bs as [|b0 r0]; cbn [utf8_decode] in H.
    { injection H as <-. split; reflexivity. }
    cbv zeta in H. pose proof (byte_val_range b0) as Hb0.
    destruct (byte_val b0 <? 128) eqn:E1.
    { apply ocons_Some in H. destruct H as (s' & H & ->).
      apply IH in H; [|simpl in Hle; lia]. destruct H as [Hs' Hu].
      split.
      - cbn [forallb]. rewrite Hs', andb_true_r. unfold scalar, surrogate. lia.
      - change (utf8 (byte_val b0 :: s')) with (utf8_char (byte_val b0) ++ utf8 s').
        rewrite Hu. unfold utf8_char. rewrite E1, byte_of_val. reflexivity. }
    destruct ((192 <=? byte_val b0) && (byte_val b0 <? 224)) eqn:E2.
    { destruct r0 as [|b1 r1]; [discriminate|].
      pose proof (byte_val_range b1) as Hb1.
      match type of H with (if ?c then _ else _) = _ => destruct c eqn:E3; [|discriminate] end.
      unfold cont in E3.
      apply ocons_Some in H. destruct H as (s' & H & ->).
      apply IH in H; [|simpl in Hle; lia]. destruct H as [Hs' Hu].
      set (c := (byte_val b0 - 192) * 64 + (byte_val b1 - 128)) in *.
      split.
      - cbn [forallb]. rewrite Hs', andb_true_r. unfold scalar, surrogate. subst c. lia.
      - change (utf8 (c :: s')) with (utf8_char c ++ utf8 s').
        rewrite Hu. unfold utf8_char.
        replace (c <? 128) with false by lia. replace (c <? 2048) with true by (subst c; lia).
        rewrite (byte_of_eq _ b0), (byte_of_eq _ b1) by (subst c; lia). reflexivity. }
    destruct ((224 <=? byte_val b0) && (byte_val b0 <? 240)) eqn:E3.
    { destruct r0 as [|b1 [|b2 r2]]; [discriminate|discriminate|].
      pose proof (byte_val_range b1) as Hb1. pose proof (byte_val_range b2) as Hb2.
      match type of H with (if ?c then _ else _) = _ => destruct c eqn:E4; [|discriminate] end.
      unfold cont, surrogate in E4.
      apply ocons_Some in H. destruct H as (s' & H & ->).
      apply IH in H; [|simpl in Hle; lia]. destruct H as [Hs' Hu].
      set (c := (byte_val b0 - 224) * 4096 + (byte_val b1 - 128) * 64 + (byte_val b2 - 128)) in *.
      split.
      - cbn [forallb]. rewrite Hs', andb_true_r. unfold scalar, surrogate. subst c. lia.
      - change (utf8 (c :: s')) with (utf8_char c ++ utf8 s').
        rewrite Hu. unfold utf8_char.
        replace (c <? 128) with false by lia. replace (c <? 2048) with false by lia.
        replace (c <? 65536) with true by (subst c; lia).
        rewrite (byte_of_eq _ b0), (byte_of_eq _ b1), (byte_of_eq _ b2) by (subst c; lia). reflexivity. }
    destruct ((240 <=? byte_val b0) && (byte_val b0 <? 248)) eqn:E4; [|discriminate].
    destruct r0 as [|b1 [|b2 [|b3 r3]]]; [discriminate|discriminate|discriminate|].
    pose proof (byte_val_range b1) as Hb1. pose proof (byte_val_range b2) as Hb2.
    pose proof (byte_val_range b3) as Hb3.
    match type of H with (if ?c then _ else _) = _ => destruct c eqn:E5; [|discriminate] end.
    unfold cont in E5.
    apply ocons_Some in H. destruct H as (s' & H & ->).
    apply IH in H; [|simpl in Hle; lia]. destruct H as [Hs' Hu].
    set (c := (byte_val b0 - 240) * 262144 + (byte_val b1 - 128) * 4096
              + (byte_val b2 - 128) * 64 + (byte_val b3 - 128)) in *.
    split.
    + cbn [forallb]. rewrite Hs', andb_true_r. unfold scalar, surrogate. lia.
    + change (utf8 (c :: s')) with (utf8_char c ++ utf8 s').
      rewrite Hu. unfold utf8_char.
      replace (c <? 128) with false by lia. replace (c <? 2048) with false by lia.
      replace (c <? 65536) with false by lia.
      rewrite (byte_of_eq _ b0), (byte_of_eq _ b1), (byte_of_eq _ b2), (byte_of_eq _ b3) by (subst c; lia).
      reflexivity.
Qed.

(** ** Trailing NULs *)
(** The last byte, if any, is not zero. *)
Definition no_trailing0 (bs : bytes) : Prop := forall r b, bs = r ++ [b] -> byte_val b <> 0.

Lemma rstrip0_spec bs : exists k, bs = rstrip0 bs ++ repeat (byte_of 0) k.
Proof.
  induction bs as [|b r [k IH]]; [exists 0%nat; reflexivity|].
  cbn [rstrip0]. destruct (rstrip0 r) as [|b' r'] eqn:E.
  - destruct (byte_val b =? 0) eqn:Eb.
    + exists (S k). simpl. rewrite IH at 1. simpl.
      f_equal. symmetry. apply byte_of_eq. lia.
    + exists k. rewrite IH at 1. reflexivity.
  - exists k. rewrite IH at 1. reflexivity.
Qed.

Lemma rstrip0_no_trailing bs : no_trailing0 (rstrip0 bs).
Proof.
  induction bs as [|b r IH]; intros p c H.
  - simpl in H. destruct p; discriminate.
  - cbn [rstrip0] in H. destruct (rstrip0 r) as [|b' r'] eqn:E.
    + destruct (byte_val b =? 0) eqn:Eb; [destruct p; discriminate|].
      destruct p as [|p0 [|p1 p]]; simpl in H; try discriminate. injection H as <-. lia.
    + destruct p as [|p0 p]; simpl in H; [discriminate|]. injection H as _ H. apply (IH p c H).
Qed.

Lemma rstrip0_id bs : no_trailing0 bs -> rstrip0 bs = bs.
Proof.
  induction bs as [|b r IH]; [reflexivity|]. intros H. cbn [rstrip0].
  rewrite IH.
  - destruct r as [|b' r']; [|reflexivity].
    specialize (H [] b eq_refl). destruct (byte_val b =? 0) eqn:E; [lia|reflexivity].
  - intros p c ->. apply (H (b :: p) c). reflexivity.
Qed.

Lemma rstrip0_zeros bs k : rstrip0 (bs ++ repeat (byte_of 0) k) = rstrip0 bs.
Proof.
  induction bs as [|b r IH].
  - simpl. induction k as [|k IHk]; [reflexivity|]. cbn [repeat rstrip0]. rewrite IHk.
    rewrite byte_val_of. reflexivity.
  - cbn [app rstrip0]. rewrite IH. reflexivity.
Qed.

Lemma rstrip0_length bs : (length (rstrip0 bs) <= length bs)%nat.
Proof.
  destruct (rstrip0_spec bs) as [k H]. rewrite H at 2. rewrite app_length. lia.
Qed.

(** A string ends in U+0000 iff its UTF-8 form ends in a zero byte. *)
Lemma utf8_char_last c : scalar c = true -> c <> 0 ->
  exists r b, utf8_char c = r ++ [b] /\ byte_val b <> 0.
Proof.
  unfold scalar, surrogate. intros Hc H0. unfold utf8_char.
  destruct (c <? 128) eqn:E1; [|destruct (c <? 2048) eqn:E2; [|destruct (c <? 65536) eqn:E3]].
  - exists [], (byte_of c). split; [reflexivity|]. rewrite byte_val_of. lia.
  - eexists [_], _. split; [reflexivity|]. rewrite byte_val_of. lia.
  - eexists [_; _], _. split; [reflexivity|]. rewrite byte_val_of. lia.
  - eexists [_; _; _], _. split; [reflexivity|]. rewrite byte_val_of. lia.
Qed.

(** The string does not end in U+0000. *)
Definition no_trailing_nul (s : pystr) : bool := negb (last s 1 =? 0).

Lemma no_trailing_nul_utf8 s :
  forallb scalar s = true -> no_trailing_nul s = true <-> no_trailing0 (utf8 s).
Proof.
  intros Hs. destruct (rev s) as [|c t] eqn:Er.
  - apply (f_equal (@rev Z)) in Er. rewrite rev_involutive in Er. subst s. simpl.
    split; [|reflexivity]. intros _ p b H. destruct p; discriminate.
  - apply (f_equal (@rev Z)) in Er. rewrite rev_involutive in Er. cbn [rev] in Er. subst s.
    rewrite forallb_app in Hs. cbn [forallb] in Hs. apply andb_prop in Hs. destruct Hs as [_ Hc].
    rewrite andb_true_r in Hc.
    unfold no_trailing_nul. rewrite last_last.
    rewrite utf8_app. change (utf8 [c]) with (utf8_char c ++ []). rewrite app_nil_r.
    split.
    + intros Hn. destruct (utf8_char_last c Hc ltac:(lia)) as (r & b & Hr & Hb).
      intros p b' H. rewrite Hr, app_assoc in H. apply app_inj_tail in H. destruct H as [_ <-]. exact Hb.
    + intros Hn. destruct (c =? 0) eqn:E; [|reflexivity]. exfalso.
      assert (c = 0) by lia. subst c.
      apply (Hn (utf8 (rev t)) (byte_of 0)); reflexivity.
Qed.
