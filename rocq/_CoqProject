-Q theories Verif
theories/Base.v
theories/PyInt.v
theories/PyFloat.v
theories/PyStr.v
theories/PyStruct.v
theories/DataTypes.v
theories/Versions.v
theories/Common.v
theories/M_Sound.v
theories/M_PlayerColour.v
theories/M_Effect.v
theories/M_TerrainRestriction.v
theories/M_Graphic.v
theories/M_TerrainBlock.v
theories/M_RandomMaps.v
theories/M_Task.v
theories/M_UnitHeaders.v
theories/M_Unit.v
theories/M_Civ.v
theories/M_Tech.v
theories/M_TechTree.v
theories/M_DatFile.v
theories/Wire.v
theories/Layout.v
theories/Shape.v
theories/Codec.v
theories/CodecP.v
theories/CodecF.v
theories/CodecC.v
theories/P_Simple.v
theories/P_More.v
theories/P_Unit.v
theories/P_UnitR.v
theories/P_Civ.v
theories/P_DatFile.v
theories/Spec.v
theories/Theory.v
theories/Sample.v
theories/Props_Classes.v
theories/Props_Dat.v
theories/FloatSpec.v
theories/FloatP.v
theories/Props_Prim.v
theories/Flat.v
theories/FlatP.v
theories/Size.v
theories/SizeP.v
theories/Props_Size.v
theories/Update.v
theories/Convert.v
theories/ConvertP.v
theories/ConvertE.v
theories/Props_Convert.v
theories/Stored.v
theories/StoredP.v
theories/Props_Version.v
theories/Props_Slots.v
theories/Faults.v
theories/Raise.v
theories/RaiseR.v
theories/Props_Errors.v
theories/Props_Range.v
theories/FS.v
theories/Props_FS.v
theories/Dump.v
theories/DumpL.v
theories/Props_Dump.v
theories/Edit.v
theories/Props_Local.v
theories/EditP.v
theories/Props_Readme.v
theories/Floats.v
theories/Rounded.v
theories/FloatsP.v
theories/Props_Rounded.v
theories/Props_Mistakes.v
theories/Parts.v
theories/Props_Cut.v
theories/Props_Losses.v
theories/Json.v
theories/JsonP.v
theories/JsonT.v
theories/Props_Json.v
theories/Sched.v
theories/Props_Sched.v
theories/Props_Lists.v
theories/Equal.v
theories/EqualP.v
theories/Props_Equal.v
theories/Py.v
theories/Source.v
theories/SourceCli.v
theories/PyRep.v
theories/PyPure.v
theories/PyPureSim.v
theories/PyW.v
theories/PyWE.v
theories/Deep.v
theories/PyWC.v
theories/PyWS.v
theories/PyWD.v
theories/PyR.v
theories/PyRE.v
theories/PyRH.v
theories/PyRA.v
theories/PyRL.v
theories/PyRC.v
theories/PyRP.v
theories/PyRS.v
theories/PyRT.v
theories/PyRK1.v
theories/PyRK2.v
theories/PyRK3.v
theories/PyRK4.v
theories/PyRU.v
theories/PyRV.v
theories/PyRD.v
theories/PyTree.v
theories/Props_Source.v
theories/PyLoad.v
theories/Props_Load.v
theories/Props_Programs.v
theories/World.v
theories/Props_World.v
theories/PyKinds.v
theories/PyNew.v
theories/PyCopy.v
theories/PyEdit.v
theories/Props_Edits.v
theories/Props_Copies.v
theories/Cli.v
theories/CliL.v
theories/CliS.v
theories/Props_Cli.v
theories/Many.v
theories/Props_Many.v
theories/Props_Types.v
theories/PySame.v
theories/Props_Same.v
theories/PyJson.v
theories/Props_PyJson.v
