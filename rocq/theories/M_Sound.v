(** * Model of /repo/src/genieutils/sound.py

    Transcribed statement by statement (tools/gen_model.py); readers and writers come
    from the Python [from_bytes*] and [to_bytes*] respectively. *)
From Verif Require Import Base PyInt PyFloat PyStr PyStruct DataTypes Versions Common.
From Coq Require Import String.
Open Scope Z_scope.
Local Open Scope list_scope.


(** sound.py:8-13 class SoundItem *)
Record SoundItem : Set := mkSoundItem {
  SoundItem_filename : pystr;
  SoundItem_resource_id : Z;
  SoundItem_probability : Z;
  SoundItem_civilization : Z;
  SoundItem_icon_set : Z }.

(** sound.py:16-23 SoundItem.from_bytes *)
Definition SoundItem_from_bytes : rd SoundItem :=
  filename <- read_debug_string ;;
  resource_id <- read_int_32 true ;;
  probability <- read_int_16 true ;;
  civilization <- read_int_16 true ;;
  icon_set <- read_int_16 true ;;
  ret {| SoundItem_filename := filename;
     SoundItem_resource_id := resource_id;
     SoundItem_probability := probability;
     SoundItem_civilization := civilization;
     SoundItem_icon_set := icon_set |}.

(** sound.py:25-32 SoundItem.to_bytes *)
Definition SoundItem_to_bytes (self : SoundItem) (version : Version) : res bytes :=
  join [
    write_debug_string (SoundItem_filename self);
    write_int_32 (SoundItem_resource_id self) true;
    write_int_16 (SoundItem_probability self) true true;
    write_int_16 (SoundItem_civilization self) true true;
    write_int_16 (SoundItem_icon_set self) true true ].

(** sound.py:36-41 class Sound *)
Record Sound : Set := mkSound {
  Sound_id : Z;
  Sound_play_delay : Z;
  Sound_cache_time : Z;
  Sound_total_probability : Z;
  Sound_items : list SoundItem }.

(** sound.py:44-57 Sound.from_bytes *)
Definition Sound_from_bytes : rd Sound :=
  id_ <- read_int_16 true ;;
  play_delay <- read_int_16 true ;;
  items_size <- read_int_16 true ;;
  cache_time <- read_int_32 true ;;
  total_probability <- read_int_16 true ;;
  items <- read_class_array SoundItem_from_bytes items_size ;;
  ret {| Sound_id := id_;
     Sound_play_delay := play_delay;
     Sound_cache_time := cache_time;
     Sound_total_probability := total_probability;
     Sound_items := items |}.

(** sound.py:59-67 Sound.to_bytes *)
Definition Sound_to_bytes (self : Sound) (version : Version) : res bytes :=
  join [
    write_int_16 (Sound_id self) true true;
    write_int_16 (Sound_play_delay self) true true;
    write_int_16 (len (Sound_items self)) true true;
    write_int_32 (Sound_cache_time self) true;
    write_int_16 (Sound_total_probability self) true true;
    write_class_array SoundItem_to_bytes (map Some (Sound_items self)) version ].
