(** * Model of /repo/src/genieutils/effect.py

    Transcribed statement by statement (tools/gen_model.py); readers and writers come
    from the Python [from_bytes*] and [to_bytes*] respectively. *)
From Verif Require Import Base PyInt PyFloat PyStr PyStruct DataTypes Versions Common.
From Coq Require Import String.
Open Scope Z_scope.
Local Open Scope list_scope.


(** effect.py:8-13 class EffectCommand *)
Record EffectCommand : Set := mkEffectCommand {
  EffectCommand_type : Z;
  EffectCommand_a : Z;
  EffectCommand_b : Z;
  EffectCommand_c : Z;
  EffectCommand_d : f64 }.

(** effect.py:16-23 EffectCommand.from_bytes *)
Definition EffectCommand_from_bytes : rd EffectCommand :=
  type <- read_int_8 ;;
  a <- read_int_16 true ;;
  b <- read_int_16 true ;;
  c <- read_int_16 true ;;
  d <- read_float ;;
  ret {| EffectCommand_type := type;
     EffectCommand_a := a;
     EffectCommand_b := b;
     EffectCommand_c := c;
     EffectCommand_d := d |}.

(** effect.py:25-32 EffectCommand.to_bytes *)
Definition EffectCommand_to_bytes (self : EffectCommand) (version : Version) : res bytes :=
  join [
    write_int_8 (EffectCommand_type self);
    write_int_16 (EffectCommand_a self) true true;
    write_int_16 (EffectCommand_b self) true true;
    write_int_16 (EffectCommand_c self) true true;
    write_float (EffectCommand_d self) ].

(** effect.py:36-38 class Effect *)
Record Effect : Set := mkEffect {
  Effect_name : pystr;
  Effect_effect_commands : list EffectCommand }.

(** effect.py:41-48 Effect.from_bytes *)
Definition Effect_from_bytes : rd Effect :=
  name <- read_debug_string ;;
  effect_command_count <- read_int_16 true ;;
  effect_commands <- read_class_array EffectCommand_from_bytes effect_command_count ;;
  ret {| Effect_name := name;
     Effect_effect_commands := effect_commands |}.

(** effect.py:50-55 Effect.to_bytes *)
Definition Effect_to_bytes (self : Effect) (version : Version) : res bytes :=
  join [
    write_debug_string (Effect_name self);
    write_int_16 (len (Effect_effect_commands self)) true true;
    write_class_array EffectCommand_to_bytes (map Some (Effect_effect_commands self)) version ].
