(** * Python [struct] module, little-endian standard mode ('<').

    [struct.pack], [struct.unpack] and [struct.calcsize] as used by
    /repo/src/genieutils/task.py and unit.py with the characters b, h, l, f. *)
From Verif Require Import Base PyInt PyFloat.
From Coq Require Import ZArith Lia ZifyBool String Ascii.
Open Scope Z_scope.
Local Open Scope list_scope.

(** A Python argument/result of pack/unpack. *)
Inductive pyval : Set := VInt (z : Z) | VFloat (x : f64).

(** Format characters. *)
Inductive fc : Set := Fb (* signed char, 1 *) | Fh (* short, 2 *) | Fl (* long, 4 *) | Ff (* float, 4 *).
Definition fc_size (c : fc) : nat := match c with Fb => 1 | Fh => 2 | Fl => 4 | Ff => 4 end.

Fixpoint parse_chars (s : string) : option (list fc) :=
  match s with
  | EmptyString => Some []
  | String a r =>
      match parse_chars r with
      | None => None
      | Some cs =>
          if Ascii.eqb a "b" then Some (Fb :: cs)
          else if Ascii.eqb a "h" then Some (Fh :: cs)
          else if Ascii.eqb a "l" then Some (Fl :: cs)
          else if Ascii.eqb a "f" then Some (Ff :: cs)
          else None
      end
  end.
(** Formats of the form '<...'. *)
Definition parse_fmt (s : string) : option (list fc) :=
  match s with
  | String a r => if Ascii.eqb a "<" then parse_chars r else None
  | EmptyString => None
  end.

Fixpoint fmt_size (cs : list fc) : nat :=
  match cs with [] => 0 | c :: r => fc_size c + fmt_size r end.
(** [struct.calcsize(f)] (0 stands for an invalid format). *)
Definition calcsize (f : string) : nat :=
  match parse_fmt f with Some cs => fmt_size cs | None => 0 end.

(** One item. Out-of-range integers raise struct.error, a finite float that does
    not fit binary32 raises OverflowError, a float passed for an integer item raises
    struct.error; an int passed for 'f' is converted to a float first (struct.error
    if it is too large for a double). *)
Definition pack_float (x : f64) : res bytes :=
  if f64_too_large x then Err OverflowError else Ok (le_bytes 4 (f32_of_f64 x)).
Definition pack1 (c : fc) (v : pyval) : res bytes :=
  match c, v with
  | Ff, VFloat x => pack_float x
  | Ff, VInt z => match f64_of_Z z with Some x => pack_float x | None => Err StructError end
  | Fb, VInt z => if int_fits 1 true z then Ok (le_bytes 1 z) else Err StructError
  | Fh, VInt z => if int_fits 2 true z then Ok (le_bytes 2 z) else Err StructError
  | Fl, VInt z => if int_fits 4 true z then Ok (le_bytes 4 z) else Err StructError
  | _, _ => Err StructError
  end.

Fixpoint pack_items (cs : list fc) (vs : list pyval) : res bytes :=
  match cs, vs with
  | c :: cs', v :: vs' => pack1 c v +++ pack_items cs' vs'
  | _, _ => Ok []
  end.

(** [struct.pack(f, *vs)] *)
Definition struct_pack (f : string) (vs : list pyval) : res bytes :=
  match parse_fmt f with
  | None => Err StructError
  | Some cs => if Nat.eqb (List.length cs) (List.length vs) then pack_items cs vs else Err StructError
  end.

Definition unpack1 (c : fc) (bs : bytes) : pyval :=
  match c with
  | Ff => VFloat (f64_of_f32 (le_value bs))
  | _ => VInt (int_from_bytes bs true)
  end.

Fixpoint unpack_items (cs : list fc) (bs : bytes) : list pyval :=
  match cs with
  | [] => []
  | c :: cs' => unpack1 c (firstn (fc_size c) bs) :: unpack_items cs' (skipn (fc_size c) bs)
  end.

(** [struct.unpack(f, bs)]: struct.error unless the buffer has exactly calcsize(f) bytes. *)
Definition struct_unpack (f : string) (bs : bytes) : res (list pyval) :=
  match parse_fmt f with
  | None => Err StructError
  | Some cs => if Nat.eqb (List.length bs) (fmt_size cs) then Ok (unpack_items cs bs) else Err StructError
  end.

(** Ghost: does some float item hold a signalling NaN pattern? *)
Fixpoint snan_items (cs : list fc) (bs : bytes) : bool :=
  match cs with
  | [] => false
  | c :: cs' =>
      (match c with Ff => f32_snan (le_value (firstn 4 bs)) | _ => false end)
      || snan_items cs' (skipn (fc_size c) bs)
  end.
Definition struct_snan (f : string) (bs : bytes) : bool :=
  match parse_fmt f with Some cs => snan_items cs bs | None => false end.

(** ** Facts *)
(** A value that survives pack/unpack with format character [c]. *)
Definition val_ok (c : fc) (v : pyval) : Prop :=
  match c, v with
  | Ff, VFloat x => f32_exact x = true
  | Ff, VInt _ => False
  | _, VFloat _ => False
  | c, VInt z => int_fits (fc_size c) true z = true
  end.
Fixpoint vals_ok (cs : list fc) (vs : list pyval) : Prop :=
  match cs, vs with
  | [], [] => True
  | c :: cs', v :: vs' => val_ok c v /\ vals_ok cs' vs'
  | _, _ => False
  end.

Lemma vals_ok_length cs vs : vals_ok cs vs -> List.length cs = List.length vs.
Proof.
  revert vs; induction cs as [|c cs IH]; intros [|v vs]; simpl; try tauto.
  intros [_ H]. f_equal. apply IH, H.
Qed.

Lemma word_4 : word 4 = 2 ^ 32. Proof. reflexivity. Qed.

Lemma le_value_4_range bs : List.length bs = 4%nat -> 0 <= le_value bs < 2 ^ 32.
Proof. intros H. pose proof (le_value_range bs) as Hr. rewrite H in Hr. exact Hr. Qed.

Lemma le_value_le_bytes_f32 x : le_value (le_bytes 4 (f32_of_f64 x)) = f32_of_f64 x.
Proof. rewrite le_value_le_bytes, word_4. apply Z.mod_small, f32_of_f64_range. Qed.

Lemma pack1_ok c v : val_ok c v ->
  exists bs, pack1 c v = Ok bs /\ List.length bs = fc_size c /\ unpack1 c bs = v
    /\ (c = Ff -> f32_snan (le_value bs) = false).
Proof.
  destruct c, v as [z|x]; cbn [val_ok pack1 fc_size]; try tauto; intros H.
  1-3: rewrite H; eexists; split; [reflexivity|]; split; [apply le_bytes_length|];
       split; [|discriminate]; unfold unpack1; f_equal; apply (int_roundtrip _ true _ H).
  unfold pack_float. rewrite (f32_exact_fits x H). eexists; split; [reflexivity|]; split; [apply le_bytes_length|].
  unfold unpack1. rewrite le_value_le_bytes_f32. split.
  - f_equal. apply f64_of_f32_of_f64, H.
  - intros _. apply f32_of_f64_not_snan.
Qed.

Lemma unpack1_ok c bs : List.length bs = fc_size c ->
  val_ok c (unpack1 c bs) /\
  ((c = Ff -> f32_snan (le_value bs) = false) -> pack1 c (unpack1 c bs) = Ok bs).
Proof.
  intros Hl. destruct c; cbn [val_ok pack1 fc_size unpack1] in *.
  1-3: pose proof (int_from_bytes_fits bs true) as H; rewrite Hl in H; rewrite H;
       split; [reflexivity|]; intros _; rewrite <- Hl; f_equal; apply le_bytes_int_from_bytes.
  pose proof (le_value_4_range bs Hl) as Hr.
  pose proof (f32_exact_of_f32 _ Hr) as Hx. split; [exact Hx|].
  intros Hs. unfold pack_float. rewrite (f32_exact_fits _ Hx).
  rewrite f32_of_f64_of_f32 by auto. f_equal. rewrite <- Hl. apply le_bytes_le_value.
Qed.

Lemma pack_items_ok cs vs : vals_ok cs vs ->
  exists bs, pack_items cs vs = Ok bs /\ List.length bs = fmt_size cs
    /\ unpack_items cs bs = vs /\ snan_items cs bs = false.
Proof.
  revert vs; induction cs as [|c cs IH]; intros [|v vs]; cbn [vals_ok pack_items fmt_size unpack_items snan_items]; try tauto.
  - intros _. exists []. auto.
  - intros [Hv Hvs]. destruct (pack1_ok c v Hv) as (b1 & E1 & L1 & U1 & S1).
    destruct (IH vs Hvs) as (b2 & E2 & L2 & U2 & S2).
    exists (b1 ++ b2). rewrite E1, E2. split; [reflexivity|].
    rewrite app_length, L1, L2. split; [reflexivity|].
    rewrite firstn_app, skipn_app, L1, Nat.sub_diag, firstn_O, app_nil_r.
    rewrite <- L1, firstn_all, skipn_all. cbn [app]. rewrite skipn_O, U1, U2. split; [reflexivity|].
    rewrite S2. rewrite orb_false_r.
    destruct c; try reflexivity.
    replace (firstn 4 (b1 ++ b2)) with b1; [apply S1; reflexivity|].
    rewrite firstn_app, L1. cbn [fc_size]. rewrite Nat.sub_diag, firstn_O, app_nil_r.
    replace 4%nat with (List.length b1) by exact L1. rewrite firstn_all. reflexivity.
Qed.

Lemma unpack_items_ok cs bs : List.length bs = fmt_size cs ->
  vals_ok cs (unpack_items cs bs) /\
  (snan_items cs bs = false -> pack_items cs (unpack_items cs bs) = Ok bs).
Proof.
  revert bs; induction cs as [|c cs IH]; intros bs Hl; cbn [unpack_items vals_ok snan_items pack_items] in *.
  - destruct bs; [auto|discriminate].
  - cbn [fmt_size] in Hl.
    assert (L1 : List.length (firstn (fc_size c) bs) = fc_size c) by (apply firstn_length_le; lia).
    assert (L2 : List.length (skipn (fc_size c) bs) = fmt_size cs) by (rewrite skipn_length; lia).
    destruct (unpack1_ok c _ L1) as [V1 P1]. destruct (IH _ L2) as [V2 P2].
    split; [auto|]. intros Hs. apply orb_false_elim in Hs. destruct Hs as [Hs1 Hs2].
    rewrite P1, P2 by (try exact Hs2; intros ->; exact Hs1).
    cbn. rewrite firstn_skipn. reflexivity.
Qed.

(** pack then unpack, for every format and every tuple of values in range. *)
Lemma struct_roundtrip f cs vs : parse_fmt f = Some cs -> vals_ok cs vs ->
  exists bs, struct_pack f vs = Ok bs /\ List.length bs = calcsize f
    /\ struct_unpack f bs = Ok vs /\ struct_snan f bs = false.
Proof.
  intros Hf Hv. destruct (pack_items_ok cs vs Hv) as (bs & E & L & U & S).
  exists bs. unfold struct_pack, struct_unpack, struct_snan, calcsize. rewrite Hf.
  rewrite (vals_ok_length _ _ Hv), Nat.eqb_refl, L, Nat.eqb_refl, U. auto.
Qed.

(** unpack then pack, for every buffer. *)
Lemma struct_unpack_inv f cs bs vs : parse_fmt f = Some cs -> struct_unpack f bs = Ok vs ->
  List.length bs = calcsize f /\ vals_ok cs vs /\ (struct_snan f bs = false -> struct_pack f vs = Ok bs).
Proof.
  intros Hf. unfold struct_pack, struct_unpack, struct_snan, calcsize. rewrite Hf.
  destruct (Nat.eqb (List.length bs) (fmt_size cs)) eqn:E; [|discriminate].
  apply Nat.eqb_eq in E. intros [= <-]. destruct (unpack_items_ok cs bs E) as [V P].
  split; [exact E|]. split; [exact V|].
  rewrite (vals_ok_length _ _ V), Nat.eqb_refl. exact P.
Qed.
