(** * C42 again: Python's own [json.loads] reads back every dump. *)
From Verif Require Import Base PyInt PyFloat PyStr Versions Wire Layout Shape Spec FS Dump Json.
From Verif Require Import FloatSpec M_DatFile Common Theory Sample JsonP JsonT PyJson Props_Dat Props_FS Props_Dump Props_Json.
From Coq Require Import String.
Open Scope Z_scope.
Local Open Scope list_scope.

(** Python's reader gets the whole dump back, whatever the floats of the file are; only which NaN a
    NaN was is lost. *)
Theorem C42_python : forall repr float_of, reads_back repr float_of -> forall inflate f p s, printed repr inflate f p = Ok s ->
  exists x, parse inflate f p = Ok x /\ ploads float_of s = Some (pjson_of (shown x)).
Proof.
  intros repr float_of RB inflate f p s H. destruct (printed_inv _ _ _ _ _ H) as (x & P & W & ->). exists x. split; [exact P|].
  apply (ploads_dumps repr float_of RB), texts_shown, W.
Qed.
(** With all floats finite or infinite nothing is lost. *)
Theorem C42_python_exactly : forall repr float_of, reads_back repr float_of -> forall inflate f p s x, printed repr inflate f p = Ok s ->
  parse inflate f p = Ok x -> existsb is_nan (floats_in (shown x)) = false -> ploads float_of s = Some (json_of (shown x)).
Proof.
  intros repr float_of RB inflate f p s x H P N. destruct (C42_python _ _ RB _ _ _ _ H) as (y & Q & E). rewrite P in Q. injection Q as <-.
  rewrite E. f_equal. apply pjson_json, N.
Qed.
(** A text that the strict reader takes, Python's takes with the same value. *)
Theorem C42_python_strict : forall float_of s j, loads float_of s = Some j -> ploads float_of s = Some j.
Proof. exact loads_ploads. Qed.
(** Python's dictionaries keep all members. *)
Theorem C42_python_names : forall repr float_of, reads_back repr float_of -> forall inflate f p s j, printed repr inflate f p = Ok s ->
  ploads float_of s = Some j -> distinct j = true.
Proof.
  intros repr float_of RB inflate f p s j H L. destruct (C42_python _ _ RB _ _ _ _ H) as (x & P & E). rewrite E in L. injection L as <-.
  rewrite pjson_distinct. apply keys_shown.
Qed.
(** Two files with the same text hold the same object, if one of them has no NaN. *)
Theorem C42_python_different : forall repr float_of, reads_back repr float_of -> forall inflate f p g q s x, printed repr inflate f p = Ok s ->
  printed repr inflate g q = Ok s -> parse inflate f p = Ok x -> existsb is_nan (floats_in (shown x)) = false -> parse inflate g q = Ok x.
Proof.
  intros repr float_of RB inflate f p g q s x H K P N. destruct (C42_python _ _ RB _ _ _ _ H) as (x' & P' & E). rewrite P in P'. injection P' as <-.
  destruct (C42_python _ _ RB _ _ _ _ K) as (y & Q & E'). rewrite Q. f_equal. symmetry. apply C34_shown; [apply (parse_wf _ _ _ _ P)|apply (parse_wf _ _ _ _ Q)|].
  apply pjson_of_inj; [congruence|exact N].
Qed.
(** Saved, printed and read back. *)
Theorem C42_python_saved : forall repr float_of, reads_back repr float_of -> forall deflate inflate, inverts inflate deflate ->
  forall x p f f', DatFile_wf x -> saved deflate x p f f' ->
  exists s, printed repr inflate f' p = Ok s /\ ploads float_of s = Some (pjson_of (shown x)).
Proof.
  intros repr float_of RB deflate inflate I x p f f' W S. destruct (C42_saved _ _ RB _ _ I _ _ _ _ W S) as (s & H & _). exists s. split; [exact H|].
  destruct (C27_save_parse _ _ I _ _ _ _ W S) as [P _]. destruct (C42_python _ _ RB _ _ _ _ H) as (y & Q & L). rewrite P in Q. injection Q as <-. exact L.
Qed.
(** The file with a NaN: not JSON, but read back by Python. *)
Example C42_python_case : forall f p, exists f' s, saved store not_a_number p f f' /\ printed exact_repr unstore f' p = Ok s /\
  loads exact_float s = None /\ ploads exact_float s = Some (json_of (shown not_a_number)).
Proof.
  intros f p. destruct (C27_can_save store not_a_number p f not_a_number_wf) as (f' & S).
  destruct (C42_saved _ _ exact_reads_back _ _ store_inverts _ _ _ _ not_a_number_wf S) as (s & P & L).
  destruct (C42_python_saved _ _ exact_reads_back _ _ store_inverts _ _ _ _ not_a_number_wf S) as (s' & P' & L'). rewrite P in P'. injection P' as <-.
  exists f', s. split; [exact S|]. split; [exact P|]. split; [rewrite L; vm_compute; reflexivity|].
  rewrite L'. vm_compute. reflexivity.
Qed.
(** The three words. *)
Example C42_python_words : ploads exact_float (text "[NaN, -Infinity, Infinity, -1]") = Some (JList [JFloat NAN; JFloat MINUS_INFINITY; JFloat INFINITY; JInt (-1)])
  /\ loads exact_float (text "[NaN]") = None.
Proof. split; vm_compute; reflexivity. Qed.
Definition all_of_this_file := (C42_python, C42_python_exactly, C42_python_strict, C42_python_names, C42_python_different, C42_python_saved, C42_python_case, C42_python_words).
Print Assumptions all_of_this_file.
