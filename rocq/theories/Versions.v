(** * Model of /repo/src/genieutils/versions.py *)
From Verif Require Import Base.
From Coq Require Import String Ascii.
Open Scope Z_scope.
Local Open Scope list_scope.

(** Python string literal (ASCII) as code points. *)
Fixpoint lit (s : string) : pystr :=
  match s with
  | EmptyString => []
  | String a r => Z.of_N (N_of_ascii a) :: lit r
  end.

(** versions.py:4-15. *)
Inductive Version : Set :=
| UNDEFINED | VER_71 | VER_72 | VER_73 | VER_74 | VER_75 | VER_76 | VER_77
| VER_78 | VER_84 | VER_88.

(** versions.py:5-15, the enum values ([Version.value]). *)
Definition version_value (v : Version) : pystr :=
  match v with
  | UNDEFINED => lit "UNDEFINED"
  | VER_71 => lit "VER 7.1"
  | VER_72 => lit "VER 7.2"
  | VER_73 => lit "VER 7.3"
  | VER_74 => lit "VER 7.4"
  | VER_75 => lit "VER 7.5"
  | VER_76 => lit "VER 7.6"
  | VER_77 => lit "VER 7.7"
  | VER_78 => lit "VER 7.8"
  | VER_84 => lit "VER 8.4"
  | VER_88 => lit "VER 8.8"
  end.

(** versions.py:4-15, iteration order of the enum. *)
Definition all_versions : list Version :=
  [UNDEFINED; VER_71; VER_72; VER_73; VER_74; VER_75; VER_76; VER_77; VER_78; VER_84; VER_88].

(** Python [str] comparison: lexicographic by code point (used by versions.py:18-27). *)
Fixpoint str_compare (a b : pystr) : comparison :=
  match a, b with
  | [], [] => Eq
  | [], _ :: _ => Lt
  | _ :: _, [] => Gt
  | x :: a', y :: b' => match Z.compare x y with Eq => str_compare a' b' | c => c end
  end.
Definition str_eqb (a b : pystr) : bool :=
  match str_compare a b with Eq => true | _ => false end.

(** versions.py:17-18 [__lt__] *)
Definition version_lt (a b : Version) : bool :=
  match str_compare (version_value a) (version_value b) with Lt => true | _ => false end.
(** versions.py:20-21 [__le__] *)
Definition version_le (a b : Version) : bool :=
  match str_compare (version_value a) (version_value b) with Gt => false | _ => true end.
(** versions.py:23-24 [__gt__] *)
Definition version_gt (a b : Version) : bool :=
  match str_compare (version_value a) (version_value b) with Gt => true | _ => false end.
(** versions.py:26-27 [__ge__] *)
Definition version_ge (a b : Version) : bool :=
  match str_compare (version_value a) (version_value b) with Lt => false | _ => true end.

(** [Version(s)] (enum lookup by value): ValueError if no member has that value. *)
Definition version_lookup (s : pystr) : res Version :=
  match find (fun v => str_eqb (version_value v) s) all_versions with
  | Some v => Ok v
  | None => Err ValueError
  end.
