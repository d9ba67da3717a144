{
 "claims": [
  {
   "property": "C01",
   "status": "proved",
   "theorems": [
    "C01_round_trip"
   ],
   "note": ""
  },
  {
   "property": "C02",
   "status": "proved",
   "theorems": [
    "C02_exact"
   ],
   "note": ""
  },
  {
   "property": "C03",
   "status": "proved",
   "theorems": [
    "C03_fixpoint"
   ],
   "note": ""
  },
  {
   "property": "C04",
   "status": "proved",
   "theorems": [
    "C04_byte_exact",
    "C04_byte_exact_whole",
    "C04_byte_exact_at"
   ],
   "note": "Byte-exactness iff the ghost list of losses is empty; C38 shows each kind of loss occurs and is a real one."
  },
  {
   "property": "C05",
   "status": "proved",
   "theorems": [
    "C05_self_delimiting",
    "C05_trailing_bytes_ignored"
   ],
   "note": ""
  },
  {
   "property": "C06",
   "status": "proved",
   "theorems": [
    "C06_SoundItem",
    "C06_Sound",
    "C06_PlayerColour",
    "C06_EffectCommand",
    "C06_Effect",
    "C06_TerrainPassGraphic",
    "C06_GraphicDelta",
    "C06_GraphicAngleSound",
    "C06_Graphic",
    "C06_FrameData",
    "C06_Terrain",
    "C06_TileSize",
    "C06_TerrainBlock",
    "C06_MapUnit",
    "C06_MapTerrain",
    "C06_MapLand",
    "C06_MapElevation",
    "C06_MapInfo",
    "C06_RandomMaps",
    "C06_Task",
    "C06_UnitHeaders",
    "C06_ResourceStorage",
    "C06_DamageGraphic",
    "C06_DeadFish",
    "C06_Bird",
    "C06_AttackOrArmor",
    "C06_Type50",
    "C06_Projectile",
    "C06_ResourceCost",
    "C06_TrainLocation",
    "C06_Creatable",
    "C06_BuildingAnnex",
    "C06_Building",
    "C06_Unit",
    "C06_Civ",
    "C06_ResearchResourceCost",
    "C06_ResearchLocation",
    "C06_Tech",
    "C06_Common",
    "C06_TechTreeAge",
    "C06_BuildingConnection",
    "C06_UnitConnection",
    "C06_ResearchConnection",
    "C06_TechTree",
    "C06_TerrainRestriction"
   ],
   "note": ""
  },
  {
   "property": "C07",
   "status": "proved",
   "theorems": [
    "C07_SoundItem",
    "C07_Sound",
    "C07_PlayerColour",
    "C07_EffectCommand",
    "C07_Effect",
    "C07_TerrainPassGraphic",
    "C07_GraphicDelta",
    "C07_GraphicAngleSound",
    "C07_Graphic",
    "C07_FrameData",
    "C07_Terrain",
    "C07_TileSize",
    "C07_TerrainBlock",
    "C07_MapUnit",
    "C07_MapTerrain",
    "C07_MapLand",
    "C07_MapElevation",
    "C07_MapInfo",
    "C07_RandomMaps",
    "C07_Task",
    "C07_UnitHeaders",
    "C07_ResourceStorage",
    "C07_DamageGraphic",
    "C07_DeadFish",
    "C07_Bird",
    "C07_AttackOrArmor",
    "C07_Type50",
    "C07_Projectile",
    "C07_ResourceCost",
    "C07_TrainLocation",
    "C07_Creatable",
    "C07_BuildingAnnex",
    "C07_Building",
    "C07_Unit",
    "C07_Civ",
    "C07_ResearchResourceCost",
    "C07_ResearchLocation",
    "C07_Tech",
    "C07_Common",
    "C07_TechTreeAge",
    "C07_BuildingConnection",
    "C07_UnitConnection",
    "C07_ResearchConnection",
    "C07_TechTree",
    "C07_TerrainRestriction",
    "C07_Unit_flat",
    "C07_Civ_flat",
    "C07_DatFile_flat",
    "C07_DatFile_flat_agrees"
   ],
   "note": ""
  },
  {
   "property": "C08",
   "status": "proved",
   "theorems": [
    "C08_SoundItem",
    "C08_Sound",
    "C08_PlayerColour",
    "C08_EffectCommand",
    "C08_Effect",
    "C08_TerrainPassGraphic",
    "C08_TerrainRestriction",
    "C08_GraphicDelta",
    "C08_GraphicAngleSound",
    "C08_Graphic",
    "C08_FrameData",
    "C08_Terrain",
    "C08_TileSize",
    "C08_TerrainBlock",
    "C08_MapUnit",
    "C08_MapTerrain",
    "C08_MapLand",
    "C08_MapElevation",
    "C08_MapInfo",
    "C08_RandomMaps",
    "C08_Task",
    "C08_UnitHeaders",
    "C08_ResourceStorage",
    "C08_DamageGraphic",
    "C08_DeadFish",
    "C08_Bird",
    "C08_AttackOrArmor",
    "C08_Type50",
    "C08_Projectile",
    "C08_ResourceCost",
    "C08_TrainLocation",
    "C08_Creatable",
    "C08_BuildingAnnex",
    "C08_Building",
    "C08_Unit",
    "C08_Civ",
    "C08_ResearchResourceCost",
    "C08_ResearchLocation",
    "C08_Tech",
    "C08_Common",
    "C08_TechTreeAge",
    "C08_BuildingConnection",
    "C08_UnitConnection",
    "C08_ResearchConnection",
    "C08_TechTree",
    "C08_DatFile",
    "C08_DatFile_read"
   ],
   "note": ""
  },
  {
   "property": "C09",
   "status": "proved",
   "theorems": [
    "C09_encode",
    "C09_decode",
    "C09_reencode",
    "C09_value"
   ],
   "note": ""
  },
  {
   "property": "C10",
   "status": "proved",
   "theorems": [
    "C10_encode_decode",
    "C10_decode_encode",
    "C10_sizes",
    "C10_utf8",
    "C10_append"
   ],
   "note": ""
  },
  {
   "property": "C11",
   "status": "proved",
   "theorems": [
    "C11_write",
    "C11_write_bad_text",
    "C11_read_written",
    "C11_marker"
   ],
   "note": ""
  },
  {
   "property": "C12",
   "status": "proved",
   "theorems": [
    "C12_write",
    "C12_read_written"
   ],
   "note": ""
  },
  {
   "property": "C13",
   "status": "proved",
   "theorems": [
    "C13_patterns",
    "C13_length",
    "C13_read_value",
    "C13_survives",
    "C13_survives_any",
    "C13_nearest"
   ],
   "note": ""
  },
  {
   "property": "C14",
   "status": "proved",
   "theorems": [
    "C14_plain_becomes_infinity",
    "C14_plain_never_raises",
    "C14_struct_raises",
    "C14_struct_never_truncates"
   ],
   "note": ""
  },
  {
   "property": "C15",
   "status": "proved",
   "theorems": [
    "C15_declared_length",
    "C15_pack_unpack",
    "C15_pack_size",
    "C15_unpack_pack",
    "C15_pack_range"
   ],
   "note": ""
  },
  {
   "property": "C16",
   "status": "proved",
   "theorems": [
    "C16_order",
    "C16_distinct",
    "C16_total_order",
    "C16_lookup",
    "C16_names",
    "C16_accepted"
   ],
   "note": ""
  },
  {
   "property": "C17",
   "status": "proved",
   "theorems": [
    "C17_load_task",
    "C17_load_type_50",
    "C17_load_train_location",
    "C17_load_creatable",
    "C17_load_file",
    "C17_save_stored_part",
    "C17_save_same_stored_part",
    "C17_save_task",
    "C17_save_type_50",
    "C17_save_creatable",
    "C17_save_train_location",
    "C17_save_unit_hot_key"
   ],
   "note": ""
  },
  {
   "property": "C18",
   "status": "proved",
   "theorems": [
    "C18_convert",
    "C18_upgrade_to_88",
    "C18_upgrade_changes",
    "C18_same_version"
   ],
   "note": "General theorem for any source and target version; the 8.8 special case and the exact list of what it changes follow."
  },
  {
   "property": "C19",
   "status": "proved",
   "theorems": [
    "C19_index_error",
    "C19_downgrade_to_84",
    "C19_up_and_down"
   ],
   "note": ""
  },
  {
   "property": "C20",
   "status": "proved",
   "theorems": [
    "C20_unit",
    "C20_file"
   ],
   "note": ""
  },
  {
   "property": "C21",
   "status": "proved",
   "theorems": [
    "C21_unit",
    "C21_file",
    "C21_ignored"
   ],
   "note": ""
  },
  {
   "property": "C22",
   "status": "proved",
   "theorems": [
    "C22_reader",
    "C22_load_civ",
    "C22_load_graphics",
    "C22_save_civ",
    "C22_save_graphics",
    "C22_round_trip_civ",
    "C22_round_trip"
   ],
   "note": ""
  },
  {
   "property": "C23",
   "status": "proved",
   "theorems": [
    "C23_SoundItem",
    "C23_Sound",
    "C23_PlayerColour",
    "C23_EffectCommand",
    "C23_Effect",
    "C23_TerrainPassGraphic",
    "C23_GraphicDelta",
    "C23_GraphicAngleSound",
    "C23_Graphic",
    "C23_FrameData",
    "C23_Terrain",
    "C23_TileSize",
    "C23_TerrainBlock",
    "C23_MapUnit",
    "C23_MapTerrain",
    "C23_MapLand",
    "C23_MapElevation",
    "C23_MapInfo",
    "C23_RandomMaps",
    "C23_Task",
    "C23_UnitHeaders",
    "C23_ResourceStorage",
    "C23_DamageGraphic",
    "C23_DeadFish",
    "C23_Bird",
    "C23_AttackOrArmor",
    "C23_Type50",
    "C23_Projectile",
    "C23_ResourceCost",
    "C23_TrainLocation",
    "C23_Creatable",
    "C23_BuildingAnnex",
    "C23_Building",
    "C23_Unit",
    "C23_Civ",
    "C23_ResearchResourceCost",
    "C23_ResearchLocation",
    "C23_Tech",
    "C23_Common",
    "C23_TechTreeAge",
    "C23_BuildingConnection",
    "C23_UnitConnection",
    "C23_ResearchConnection",
    "C23_TechTree",
    "C23_TerrainRestriction",
    "C23_DatFile",
    "C23_file_values",
    "C23_cost_too_large"
   ],
   "note": ""
  },
  {
   "property": "C24",
   "status": "proved",
   "theorems": [
    "C24_Sound",
    "C24_Effect",
    "C24_Graphic",
    "C24_RandomMaps",
    "C24_Bird",
    "C24_Type50",
    "C24_Creatable",
    "C24_Unit",
    "C24_Civ",
    "C24_Tech",
    "C24_TechTreeAge",
    "C24_BuildingConnection",
    "C24_UnitConnection",
    "C24_ResearchConnection",
    "C24_TechTree",
    "C24_UnitHeaders",
    "C24_DatFile",
    "C24_file_records"
   ],
   "note": ""
  },
  {
   "property": "C25",
   "status": "proved",
   "theorems": [
    "C25_restriction",
    "C25_random_maps",
    "C25_tables",
    "C25_only",
    "C25_never_written"
   ],
   "note": ""
  },
  {
   "property": "C26",
   "status": "proved",
   "theorems": [
    "C26_saves",
    "C26_unnoticed",
    "C26_terrain_count",
    "C26_tile_sizes",
    "C26_terrain_tuples",
    "C26_ragged_restrictions",
    "C26_coordinates",
    "C26_angle_sounds",
    "C26_map_sizes",
    "C26_existence",
    "C26_drop_sites",
    "C26_sections",
    "C26_unit_tuples",
    "C26_section_tuples",
    "C26_train_locations",
    "C26_hot_key",
    "C26_task_enabled",
    "C26_type_50",
    "C26_creatable",
    "C26_tech_tuples",
    "C26_research_locations",
    "C26_tree_tuples",
    "C26_undefined"
   ],
   "note": ""
  },
  {
   "property": "C27",
   "status": "proved",
   "theorems": [
    "C27_save_parse",
    "C27_parse_save_parse",
    "C27_can_save",
    "C27_saved_bytes",
    "C27_twice",
    "C27_last_wins",
    "C27_independent"
   ],
   "note": "zlib enters as two functions; the hypothesis that inflate undoes deflate is in the statement and is met by the stored-block codec."
  },
  {
   "property": "C28",
   "status": "proved",
   "theorems": [
    "C28_failing_save",
    "C28_raises",
    "C28_only_then",
    "C28_bad_cost"
   ],
   "note": ""
  },
  {
   "property": "C29",
   "status": "proved",
   "theorems": [
    "C29_crash_states",
    "C29_every_prefix",
    "C29_not_atomic",
    "C29_never_wrong"
   ],
   "note": "The hypotheses on zlib (a proper prefix of a raw deflate stream does not decompress) are in the statements and are met by the stored-block codec."
  },
  {
   "property": "C30",
   "status": "proved",
   "theorems": [
    "C30_integers",
    "C30_float",
    "C30_text",
    "C30_text_cut",
    "C30_struct",
    "C30_boundary",
    "C30_sections_before",
    "C30_closing",
    "C30_cut_block",
    "C30_cut_early",
    "C30_threshold"
   ],
   "note": "Cuts inside the sections between the terrain block and the closing numbers are covered by C30_sections_before (what is accepted agrees with the file before the cut section)."
  },
  {
   "property": "C31",
   "status": "proved",
   "theorems": [
    "C31_SoundItem",
    "C31_Sound",
    "C31_Sound_parts",
    "C31_PlayerColour",
    "C31_EffectCommand",
    "C31_Effect",
    "C31_Effect_parts",
    "C31_TerrainPassGraphic",
    "C31_TerrainRestriction",
    "C31_TerrainRestriction_parts",
    "C31_GraphicDelta",
    "C31_GraphicAngleSound",
    "C31_Graphic",
    "C31_Graphic_parts",
    "C31_FrameData",
    "C31_Terrain",
    "C31_Terrain_parts",
    "C31_TileSize",
    "C31_TerrainBlock",
    "C31_TerrainBlock_parts",
    "C31_MapUnit",
    "C31_MapTerrain",
    "C31_MapLand",
    "C31_MapElevation",
    "C31_MapInfo",
    "C31_MapInfo_parts",
    "C31_RandomMaps",
    "C31_RandomMaps_parts",
    "C31_Task",
    "C31_ResourceStorage",
    "C31_DamageGraphic",
    "C31_DeadFish",
    "C31_Bird",
    "C31_Bird_parts",
    "C31_AttackOrArmor",
    "C31_Type50",
    "C31_Type50_parts",
    "C31_Projectile",
    "C31_ResourceCost",
    "C31_TrainLocation",
    "C31_Creatable",
    "C31_Creatable_parts",
    "C31_BuildingAnnex",
    "C31_Building",
    "C31_Building_parts",
    "C31_Unit",
    "C31_Unit_parts",
    "C31_Civ",
    "C31_Civ_parts",
    "C31_ResearchResourceCost",
    "C31_ResearchLocation",
    "C31_Tech",
    "C31_Tech_parts",
    "C31_Common",
    "C31_TechTreeAge",
    "C31_TechTreeAge_parts",
    "C31_BuildingConnection",
    "C31_BuildingConnection_parts",
    "C31_UnitConnection",
    "C31_UnitConnection_parts",
    "C31_ResearchConnection",
    "C31_ResearchConnection_parts",
    "C31_TechTree",
    "C31_TechTree_parts",
    "C31_DatFile",
    "C31_DatFile_parts",
    "C31_UnitHeaders_parts",
    "C31_Unit_speed",
    "C31_fixed_width",
    "C31_widths",
    "C31_cost",
    "C31_unit_cost"
   ],
   "note": ""
  },
  {
   "property": "C32",
   "status": "proved",
   "theorems": [
    "C32_cost",
    "C32_cost_only",
    "C32_cost_bytes",
    "C32_cost_file",
    "C32_cost_refused",
    "C32_tasks_only",
    "C32_tasks",
    "C32_tasks_size",
    "C32_tasks_file"
   ],
   "note": ""
  },
  {
   "property": "C33",
   "status": "proved",
   "theorems": [
    "C33_prefix_free",
    "C33_injective"
   ],
   "note": ""
  },
  {
   "property": "C34",
   "status": "proved",
   "theorems": [
    "C34_SoundItem_fields",
    "C34_SoundItem",
    "C34_Sound_fields",
    "C34_Sound",
    "C34_PlayerColour_fields",
    "C34_PlayerColour",
    "C34_EffectCommand_fields",
    "C34_EffectCommand",
    "C34_Effect_fields",
    "C34_Effect",
    "C34_TerrainPassGraphic_fields",
    "C34_TerrainPassGraphic",
    "C34_TerrainRestriction_fields",
    "C34_TerrainRestriction",
    "C34_GraphicDelta_fields",
    "C34_GraphicDelta",
    "C34_GraphicAngleSound_fields",
    "C34_GraphicAngleSound",
    "C34_Graphic_fields",
    "C34_Graphic",
    "C34_FrameData_fields",
    "C34_FrameData",
    "C34_Terrain_fields",
    "C34_Terrain",
    "C34_TileSize_fields",
    "C34_TileSize",
    "C34_TerrainBlock_fields",
    "C34_TerrainBlock",
    "C34_MapUnit_fields",
    "C34_MapUnit",
    "C34_MapTerrain_fields",
    "C34_MapTerrain",
    "C34_MapLand_fields",
    "C34_MapLand",
    "C34_MapElevation_fields",
    "C34_MapElevation",
    "C34_MapInfo_fields",
    "C34_MapInfo",
    "C34_RandomMaps_fields",
    "C34_RandomMaps",
    "C34_Task_fields",
    "C34_Task",
    "C34_UnitHeaders_fields",
    "C34_UnitHeaders",
    "C34_ResourceStorage_fields",
    "C34_ResourceStorage",
    "C34_DamageGraphic_fields",
    "C34_DamageGraphic",
    "C34_DeadFish_fields",
    "C34_DeadFish",
    "C34_Bird_fields",
    "C34_Bird",
    "C34_AttackOrArmor_fields",
    "C34_AttackOrArmor",
    "C34_Type50_fields",
    "C34_Type50",
    "C34_Projectile_fields",
    "C34_Projectile",
    "C34_ResourceCost_fields",
    "C34_ResourceCost",
    "C34_TrainLocation_fields",
    "C34_TrainLocation",
    "C34_Creatable_fields",
    "C34_Creatable",
    "C34_BuildingAnnex_fields",
    "C34_BuildingAnnex",
    "C34_Building_fields",
    "C34_Building",
    "C34_Unit_fields",
    "C34_Unit",
    "C34_Civ_fields",
    "C34_Civ",
    "C34_ResearchResourceCost_fields",
    "C34_ResearchResourceCost",
    "C34_ResearchLocation_fields",
    "C34_ResearchLocation",
    "C34_Tech_fields",
    "C34_Tech",
    "C34_Common_fields",
    "C34_Common",
    "C34_TechTreeAge_fields",
    "C34_TechTreeAge",
    "C34_BuildingConnection_fields",
    "C34_BuildingConnection",
    "C34_UnitConnection_fields",
    "C34_UnitConnection",
    "C34_ResearchConnection_fields",
    "C34_ResearchConnection",
    "C34_TechTree_fields",
    "C34_TechTree",
    "C34_DatFile_fields",
    "C34_DatFile",
    "C34_new",
    "C34_old",
    "C34_shown",
    "C34_dump",
    "C34_bytes",
    "C34_errors"
   ],
   "note": "The tree given to json.dumps, not its text."
  },
  {
   "property": "C35",
   "status": "proved",
   "theorems": [
    "C35_argument",
    "C35_records",
    "C35_save_unknown",
    "C35_load_unknown",
    "C35_load_version"
   ],
   "note": ""
  },
  {
   "property": "C36",
   "status": "proved",
   "theorems": [
    "C36_host_order",
    "C36_same_host",
    "C36_across_hosts"
   ],
   "note": ""
  },
  {
   "property": "C37",
   "status": "proved",
   "theorems": [
    "C37_array",
    "C37_negative",
    "C37_count",
    "C37_sized",
    "C37_fixed",
    "C37_fixed_class",
    "C37_advance"
   ],
   "note": ""
  },
  {
   "property": "C38",
   "status": "proved",
   "theorems": [
    "C38_each_loss"
   ],
   "note": ""
  },
  {
   "property": "C39",
   "status": "proved",
   "theorems": [
    "C39_save",
    "C39_save_value",
    "C39_save_unicode",
    "C39_save_index",
    "C39_load",
    "C39_load_value",
    "C39_integer_records"
   ],
   "note": ""
  },
  {
   "property": "C40",
   "status": "proved",
   "theorems": [
    "C40_records",
    "C40_file",
    "C40_append",
    "C40_cut"
   ],
   "note": ""
  },
  {
   "property": "C41",
   "status": "proved",
   "theorems": [
    "C41_save_rounds",
    "C41_nearest",
    "C41_nearest_stays",
    "C41_no_rounding",
    "C41_settles",
    "C41_one_number"
   ],
   "note": ""
  },
  {
   "property": "C42",
   "status": "proved",
   "theorems": [
    "C42_json",
    "C42_names",
    "C42_different",
    "C42_ascii",
    "C42_errors",
    "C42_saved",
    "C42_python",
    "C42_python_exactly",
    "C42_python_strict",
    "C42_python_names",
    "C42_python_different",
    "C42_python_saved"
   ],
   "note": ""
  },
  {
   "property": "C43",
   "status": "proved",
   "theorems": [
    "C43_untouched",
    "C43_load",
    "C43_same",
    "C43_alone",
    "C43_saved",
    "C43_resave",
    "C43_torn_save",
    "C43_torn_load"
   ],
   "note": ""
  },
  {
   "property": "C44",
   "status": "proved",
   "theorems": [
    "C44_file",
    "C44_version",
    "C44_player_colours",
    "C44_sounds",
    "C44_graphics",
    "C44_effects",
    "C44_unit_headers",
    "C44_civs",
    "C44_techs",
    "C44_terrain_block",
    "C44_random_maps",
    "C44_tech_tree",
    "C44_terrain_restrictions",
    "C44_mix",
    "C44_Sound_items",
    "C44_Effect_effect_commands",
    "C44_Graphic_deltas",
    "C44_Bird_tasks",
    "C44_Type50_attacks",
    "C44_Type50_armours",
    "C44_Unit_damage_graphics",
    "C44_Civ_units",
    "C44_Tech_research_locations",
    "C44_Creatable_train_locations",
    "C44_TechTree_tech_tree_ages",
    "C44_TechTree_building_connections",
    "C44_TechTree_unit_connections",
    "C44_TechTree_research_connections",
    "C44_UnitHeaders_task_list"
   ],
   "note": ""
  },
  {
   "property": "C45",
   "status": "proved",
   "theorems": [
    "C45_float",
    "C45_equal",
    "C45_load_twice",
    "C45_reload",
    "C45_identical",
    "C45_reflexive",
    "C45_symmetric",
    "C45_transitive",
    "C45_saved",
    "C45_bytes"
   ],
   "note": ""
  },
  {
   "property": "C46",
   "status": "proved",
   "theorems": [
    "C46_SoundItem",
    "C46_Sound",
    "C46_PlayerColour",
    "C46_EffectCommand",
    "C46_Effect",
    "C46_TerrainPassGraphic",
    "C46_TerrainRestriction",
    "C46_GraphicDelta",
    "C46_GraphicAngleSound",
    "C46_Graphic",
    "C46_FrameData",
    "C46_Terrain",
    "C46_TileSize",
    "C46_TerrainBlock",
    "C46_MapUnit",
    "C46_MapTerrain",
    "C46_MapLand",
    "C46_MapElevation",
    "C46_MapInfo",
    "C46_RandomMaps",
    "C46_Task",
    "C46_UnitHeaders",
    "C46_ResourceStorage",
    "C46_DamageGraphic",
    "C46_DeadFish",
    "C46_Bird",
    "C46_AttackOrArmor",
    "C46_Type50",
    "C46_Projectile",
    "C46_ResourceCost",
    "C46_TrainLocation",
    "C46_Creatable",
    "C46_BuildingAnnex",
    "C46_Building",
    "C46_Unit",
    "C46_Civ",
    "C46_ResearchResourceCost",
    "C46_ResearchLocation",
    "C46_Tech",
    "C46_Common",
    "C46_TechTreeAge",
    "C46_BuildingConnection",
    "C46_UnitConnection",
    "C46_ResearchConnection",
    "C46_TechTree",
    "C46_DatFile",
    "C46_covered",
    "C46_objects"
   ],
   "note": ""
  },
  {
   "property": "C47",
   "status": "proved",
   "theorems": [
    "C47_unchanged",
    "C47_twice"
   ],
   "note": ""
  },
  {
   "property": "C48",
   "status": "proved",
   "theorems": [
    "C48_DatFile",
    "C48_SoundItem",
    "C48_Sound",
    "C48_PlayerColour",
    "C48_EffectCommand",
    "C48_Effect",
    "C48_TerrainPassGraphic",
    "C48_TerrainRestriction",
    "C48_GraphicDelta",
    "C48_GraphicAngleSound",
    "C48_Graphic",
    "C48_FrameData",
    "C48_Terrain",
    "C48_TileSize",
    "C48_TerrainBlock",
    "C48_MapUnit",
    "C48_MapTerrain",
    "C48_MapLand",
    "C48_MapElevation",
    "C48_MapInfo",
    "C48_RandomMaps",
    "C48_Task",
    "C48_UnitHeaders",
    "C48_ResourceStorage",
    "C48_DamageGraphic",
    "C48_DeadFish",
    "C48_Bird",
    "C48_AttackOrArmor",
    "C48_Type50",
    "C48_Projectile",
    "C48_ResourceCost",
    "C48_TrainLocation",
    "C48_Creatable",
    "C48_BuildingAnnex",
    "C48_Building",
    "C48_Unit",
    "C48_Civ",
    "C48_ResearchResourceCost",
    "C48_ResearchLocation",
    "C48_Tech",
    "C48_Common",
    "C48_TechTreeAge",
    "C48_BuildingConnection",
    "C48_UnitConnection",
    "C48_ResearchConnection",
    "C48_TechTree"
   ],
   "note": ""
  },
  {
   "property": "C49",
   "status": "proved",
   "theorems": [
    "C49_exact",
    "C49_DatFile",
    "C49_level",
    "C49_only",
    "C49_SoundItem",
    "C49_Sound",
    "C49_PlayerColour",
    "C49_EffectCommand",
    "C49_Effect",
    "C49_TerrainPassGraphic",
    "C49_GraphicDelta",
    "C49_GraphicAngleSound",
    "C49_Graphic",
    "C49_FrameData",
    "C49_Terrain",
    "C49_TileSize",
    "C49_TerrainBlock",
    "C49_MapUnit",
    "C49_MapTerrain",
    "C49_MapLand",
    "C49_MapElevation",
    "C49_MapInfo",
    "C49_RandomMaps",
    "C49_ResearchResourceCost",
    "C49_ResearchLocation",
    "C49_Tech",
    "C49_Common",
    "C49_TechTreeAge",
    "C49_BuildingConnection",
    "C49_UnitConnection",
    "C49_ResearchConnection",
    "C49_TechTree",
    "C49_Task",
    "C49_UnitHeaders",
    "C49_ResourceStorage",
    "C49_DamageGraphic",
    "C49_DeadFish",
    "C49_Bird",
    "C49_AttackOrArmor",
    "C49_Type50",
    "C49_Projectile",
    "C49_ResourceCost",
    "C49_TrainLocation",
    "C49_Creatable",
    "C49_BuildingAnnex",
    "C49_Building",
    "C49_Unit",
    "C49_Civ",
    "C49_TerrainRestriction"
   ],
   "note": ""
  },
  {
   "property": "C50",
   "status": "proved",
   "theorems": [
    "C50_one_path",
    "C50_fresh",
    "C50_two"
   ],
   "note": ""
  },
  {
   "property": "C51",
   "status": "proved",
   "theorems": [
    "C51_edit",
    "C51_typo",
    "C51_load_edit_save"
   ],
   "note": ""
  },
  {
   "property": "C52",
   "status": "proved",
   "theorems": [
    "C52_load_save",
    "C52_save_load"
   ],
   "note": ""
  },
  {
   "property": "C53",
   "status": "proved",
   "theorems": [
    "C53_read",
    "C53_loom",
    "C53_kings",
    "C53_loom_file",
    "C53_kings_file",
    "C53_loom_raises",
    "C53_kings_raises"
   ],
   "note": ""
  },
  {
   "property": "C54",
   "status": "proved",
   "theorems": [
    "C54_parse",
    "C54_parse_ends",
    "C54_save",
    "C54_save_back",
    "C54_save_crash",
    "C54_save_fails",
    "C54_saved",
    "C54_loom",
    "C54_loom_ends",
    "C54_kings",
    "C54_kings_ends",
    "C54_result"
   ],
   "note": ""
  },
  {
   "property": "C55",
   "status": "proved",
   "theorems": [
    "C55_any",
    "C55_kinds",
    "C55_runs",
    "C55_program",
    "C55_ends",
    "C55_loads_back"
   ],
   "note": ""
  },
  {
   "property": "C56",
   "status": "proved",
   "theorems": [
    "C56_prints",
    "C56_ends",
    "C56_main",
    "C56_saved"
   ],
   "note": ""
  },
  {
   "property": "C57",
   "status": "proved",
   "theorems": [
    "C57_alone",
    "C57_no_deadlock",
    "C57_script",
    "C57_saved",
    "C57_show",
    "C57_others"
   ],
   "note": ""
  },
  {
   "property": "C58",
   "status": "proved",
   "theorems": [
    "C58_copy_changed",
    "C58_original_changed",
    "C58_file_and_copy",
    "C58_copy_units",
    "C58_new_command"
   ],
   "note": ""
  },
  {
   "property": "C59",
   "status": "proved",
   "theorems": [
    "C59_int_from_bytes",
    "C59_int_to_bytes",
    "C59_int_round_trip",
    "C59_int_bytes_back",
    "C59_float_from_bytes",
    "C59_float_to_bytes",
    "C59_float_bytes_back",
    "C59_string_to_bytes",
    "C59_string_from_bytes",
    "C59_string_round_trip",
    "C59_version_order",
    "C59_version_lookup",
    "C59_version_value",
    "C59_handler",
    "C59_read_int",
    "C59_read_float",
    "C59_read_string",
    "C59_read_debug_string",
    "C59_read_tuple",
    "C59_read_floats",
    "C59_read_list",
    "C59_abstract"
   ],
   "note": ""
  },
  {
   "property": "C60",
   "status": "proved",
   "theorems": [
    "C60_SoundItem",
    "C60_Sound",
    "C60_PlayerColour",
    "C60_EffectCommand",
    "C60_Effect",
    "C60_TerrainPassGraphic",
    "C60_TerrainRestriction",
    "C60_GraphicDelta",
    "C60_GraphicAngleSound",
    "C60_Graphic",
    "C60_FrameData",
    "C60_Terrain",
    "C60_TileSize",
    "C60_TerrainBlock",
    "C60_MapUnit",
    "C60_MapTerrain",
    "C60_MapLand",
    "C60_MapElevation",
    "C60_MapInfo",
    "C60_RandomMaps",
    "C60_Task",
    "C60_UnitHeaders",
    "C60_ResourceStorage",
    "C60_DamageGraphic",
    "C60_DeadFish",
    "C60_Bird",
    "C60_AttackOrArmor",
    "C60_Type50",
    "C60_Projectile",
    "C60_ResourceCost",
    "C60_TrainLocation",
    "C60_Creatable",
    "C60_BuildingAnnex",
    "C60_Building",
    "C60_Unit",
    "C60_Civ",
    "C60_ResearchResourceCost",
    "C60_ResearchLocation",
    "C60_Tech",
    "C60_Common",
    "C60_TechTreeAge",
    "C60_BuildingConnection",
    "C60_UnitConnection",
    "C60_ResearchConnection",
    "C60_TechTree",
    "C60_DatFile",
    "C60_classes",
    "C60_self",
    "C60_expressions",
    "C60_two_loads",
    "C60_meaning",
    "C60_same_data",
    "C60_same_bytes",
    "C60_reload",
    "C60_symmetric",
    "C60_transitive",
    "C60_parts",
    "C60_parts_of_two",
    "C60_units",
    "C60_changed",
    "C60_file_and_copy",
    "C60_copy"
   ],
   "note": ""
  }
 ]
}