(** * The source text of genieutils, as syntax trees.

    Generated by tools/gen_src.py from the Python [ast] of the files in /repo/src/genieutils, with no
    interpretation: types and docstrings are dropped, everything else is here.  [DatFile.parse] and
    [DatFile.save] are here but not among the methods of the class, for [Py.v] has no files (FS.v
    models them).  scripts.py is in SourceCli.v. *)
From Verif Require Import Base PyFloat Py.
From Coq Require Import String.
Open Scope Z_scope.
Open Scope string_scope.
Local Open Scope list_scope.

(** datatypes.py:6-7 String.from_bytes *)
Definition src_String_from_bytes : func := mkFunc StaticMethod "datatypes" ["content"] [] [
  SReturn (ECall (EAttr (ECall (EAttr (ECall (EName "bytes") [(EName "content")]) "rstrip") [(EConst (KBytes [byte_of 0]))]) "decode") [])].
(** datatypes.py:10-15 String.to_bytes *)
Definition src_String_to_bytes : func := mkFunc StaticMethod "datatypes" ["content"; "length"] [("length", (EConst KNone))] [
  SAssign "encoded" (ECall (EAttr (EName "content") "encode") []);
  SIf (ENot (EName "length")) [
    SAssign "length" (EBin BAdd (ECall (EName "len") [(EName "encoded")]) (EConst (KInt 1)))] [];
  SAssign "zfill" (EBin BSub (EName "length") (ECall (EName "len") [(EName "encoded")]));
  SReturn (EBin BAdd (EName "encoded") (EBin BMul (EConst (KBytes [byte_of 0])) (EName "zfill")))].
(** datatypes.py:4 class String *)
Definition src_String : class := mkClass Plain []
  []
  []
  []
  [("from_bytes", src_String_from_bytes); ("to_bytes", src_String_to_bytes)].

(** datatypes.py:20-21 Int.from_bytes *)
Definition src_Int_from_bytes : func := mkFunc StaticMethod "datatypes" ["content"; "signed"] [("signed", (EConst (KBool true)))] [
  SReturn (ECall (EAttr (EName "int") "from_bytes") [(EName "content"); EKw "byteorder" (EConst (KStr "little")); EKw "signed" (EName "signed")])].
(** datatypes.py:24-25 Int.to_bytes *)
Definition src_Int_to_bytes : func := mkFunc StaticMethod "datatypes" ["content"; "length"; "signed"] [("length", (EConst (KInt 2))); ("signed", (EConst (KBool true)))] [
  SReturn (ECall (EAttr (EName "content") "to_bytes") [(EName "length"); (EConst (KStr "little")); EKw "signed" (EName "signed")])].
(** datatypes.py:18 class Int *)
Definition src_Int : class := mkClass Plain []
  []
  []
  []
  [("from_bytes", src_Int_from_bytes); ("to_bytes", src_Int_to_bytes)].

(** datatypes.py:30-31 Float.from_bytes *)
Definition src_Float_from_bytes : func := mkFunc StaticMethod "datatypes" ["content"] [] [
  SReturn (EIndex (ECall (EAttr (EName "struct") "unpack") [(EConst (KStr "f")); (EName "content")]) (EConst (KInt 0)))].
(** datatypes.py:34-35 Float.to_bytes *)
Definition src_Float_to_bytes : func := mkFunc StaticMethod "datatypes" ["content"] [] [
  SReturn (ECall (EAttr (EName "struct") "pack") [(EConst (KStr "f")); (EName "content")])].
(** datatypes.py:28 class Float *)
Definition src_Float : class := mkClass Plain []
  []
  []
  []
  [("from_bytes", src_Float_from_bytes); ("to_bytes", src_Float_to_bytes)].

(** versions.py:17-18 Version.__lt__ *)
Definition src_Version___lt__ : func := mkFunc Method "versions" ["self"; "other"] [] [
  SReturn (ECmp CLt (EAttr (EName "self") "value") (EAttr (EName "other") "value"))].
(** versions.py:20-21 Version.__le__ *)
Definition src_Version___le__ : func := mkFunc Method "versions" ["self"; "other"] [] [
  SReturn (ECmp CLe (EAttr (EName "self") "value") (EAttr (EName "other") "value"))].
(** versions.py:23-24 Version.__gt__ *)
Definition src_Version___gt__ : func := mkFunc Method "versions" ["self"; "other"] [] [
  SReturn (ECmp CGt (EAttr (EName "self") "value") (EAttr (EName "other") "value"))].
(** versions.py:26-27 Version.__ge__ *)
Definition src_Version___ge__ : func := mkFunc Method "versions" ["self"; "other"] [] [
  SReturn (ECmp CGe (EAttr (EName "self") "value") (EAttr (EName "other") "value"))].
(** versions.py:4 class Version *)
Definition src_Version : class := mkClass Enum ["Enum"]
  []
  []
  [("UNDEFINED", (KStr "UNDEFINED")); ("VER_71", (KStr "VER 7.1")); ("VER_72", (KStr "VER 7.2")); ("VER_73", (KStr "VER 7.3")); ("VER_74", (KStr "VER 7.4")); ("VER_75", (KStr "VER 7.5")); ("VER_76", (KStr "VER 7.6")); ("VER_77", (KStr "VER 7.7")); ("VER_78", (KStr "VER 7.8")); ("VER_84", (KStr "VER 8.4")); ("VER_88", (KStr "VER 8.8"))]
  [("__lt__", src_Version___lt__); ("__le__", src_Version___le__); ("__gt__", src_Version___gt__); ("__ge__", src_Version___ge__)].

(** common.py:13 class UnitType *)
Definition src_UnitType : class := mkClass IntEnum ["IntEnum"]
  []
  []
  [("EyeCandy", (KInt 10)); ("Trees", (KInt 15)); ("Flag", (KInt 20)); ("DeadFish", (KInt 30)); ("Bird", (KInt 40)); ("Combatant", (KInt 50)); ("Projectile", (KInt 60)); ("Creatable", (KInt 70)); ("Building", (KInt 80)); ("AoeTrees", (KInt 90))]
  [].

(** common.py:28-29 GenieClass.from_bytes *)
Definition src_GenieClass_from_bytes : func := mkFunc ClassMethod "common" ["cls"; "data"] [] [
  SRaise NotImplementedError].
(** common.py:32-33 GenieClass.from_bytes_with_count *)
Definition src_GenieClass_from_bytes_with_count : func := mkFunc ClassMethod "common" ["cls"; "data"; "terrains_used_1"] [] [
  SRaise NotImplementedError].
(** common.py:35-36 GenieClass.to_bytes *)
Definition src_GenieClass_to_bytes : func := mkFunc Method "common" ["self"; "version"] [] [
  SRaise NotImplementedError].
(** common.py:38-42 GenieClass.write_debug_string *)
Definition src_GenieClass_write_debug_string : func := mkFunc Method "common" ["self"; "value"] [] [
  SAssign "encoded" (ECall (EAttr (EName "value") "encode") [(EConst (KStr "utf-8"))]);
  SReturn (EBin BAdd (EBin BAdd (ECall (EAttr (EName "self") "write_int_16") [(EConst (KInt 2656)); EKw "signed" (EConst (KBool false))]) (ECall (EAttr (EName "self") "write_int_16") [(ECall (EName "len") [(EName "encoded")]); EKw "signed" (EConst (KBool false))])) (EName "encoded"))].
(** common.py:44-45 GenieClass.write_string *)
Definition src_GenieClass_write_string : func := mkFunc Method "common" ["self"; "length"; "value"] [] [
  SReturn (ECall (EAttr (EName "String") "to_bytes") [(EName "value"); (EName "length")])].
(** common.py:47-48 GenieClass.write_int_8 *)
Definition src_GenieClass_write_int_8 : func := mkFunc Method "common" ["self"; "value"] [] [
  SReturn (ECall (EAttr (EName "Int") "to_bytes") [(EName "value"); EKw "length" (EConst (KInt 1)); EKw "signed" (EConst (KBool false))])].
(** common.py:50-51 GenieClass.write_int_8_array *)
Definition src_GenieClass_write_int_8_array : func := mkFunc Method "common" ["self"; "value"] [] [
  SReturn (ECall (EAttr (EConst (KBytes [])) "join") [(EFor (ECall (EAttr (EName "self") "write_int_8") [(EName "v")]) "v" (EName "value") None)])].
(** common.py:53-56 GenieClass.write_int_16 *)
Definition src_GenieClass_write_int_16 : func := mkFunc Method "common" ["self"; "value"; "signed"; "if_"] [("signed", (EConst (KBool true))); ("if_", (EConst (KBool true)))] [
  SIf (ENot (EName "if_")) [
    SReturn (EConst (KBytes []))] [];
  SReturn (ECall (EAttr (EName "Int") "to_bytes") [(EName "value"); EKw "length" (EConst (KInt 2)); EKw "signed" (EName "signed")])].
(** common.py:58-59 GenieClass.write_int_16_array *)
Definition src_GenieClass_write_int_16_array : func := mkFunc Method "common" ["self"; "value"] [] [
  SReturn (ECall (EAttr (EConst (KBytes [])) "join") [(EFor (ECall (EAttr (EName "self") "write_int_16") [(EName "v")]) "v" (EName "value") None)])].
(** common.py:61-62 GenieClass.write_int_32 *)
Definition src_GenieClass_write_int_32 : func := mkFunc Method "common" ["self"; "value"; "signed"] [("signed", (EConst (KBool true)))] [
  SReturn (ECall (EAttr (EName "Int") "to_bytes") [(EName "value"); EKw "length" (EConst (KInt 4)); EKw "signed" (EName "signed")])].
(** common.py:64-65 GenieClass.write_int_32_array *)
Definition src_GenieClass_write_int_32_array : func := mkFunc Method "common" ["self"; "value"] [] [
  SReturn (ECall (EAttr (EConst (KBytes [])) "join") [(EFor (ECall (EAttr (EName "self") "write_int_32") [(EName "v")]) "v" (EName "value") None)])].
(** common.py:67-68 GenieClass.write_float *)
Definition src_GenieClass_write_float : func := mkFunc Method "common" ["self"; "value"] [] [
  SReturn (ECall (EAttr (EName "Float") "to_bytes") [(EName "value")])].
(** common.py:70-71 GenieClass.write_float_array *)
Definition src_GenieClass_write_float_array : func := mkFunc Method "common" ["self"; "value"] [] [
  SReturn (ECall (EAttr (EConst (KBytes [])) "join") [(EFor (ECall (EAttr (EName "self") "write_float") [(EName "v")]) "v" (EName "value") None)])].
(** common.py:73-77 GenieClass.write_class *)
Definition src_GenieClass_write_class : func := mkFunc Method "common" ["self"; "value"; "version"] [] [
  SAssign "retval" (ECall (EAttr (EName "value") "to_bytes") [(EName "version")]);
  SIf (EName "retval") [
    SReturn (EName "retval")] [];
  SReturn (EConst (KBytes []))].
(** common.py:79-83 GenieClass.write_class_array *)
Definition src_GenieClass_write_class_array : func := mkFunc Method "common" ["self"; "value"; "version"] [] [
  SAssign "retval" (ECall (EAttr (EConst (KBytes [])) "join") [(EFor (ECall (EAttr (EName "self") "write_class") [(EName "v"); (EName "version")]) "v" (EName "value") (Some (ECmp CIsNot (EName "v") (EConst KNone))))]);
  SIf (EName "retval") [
    SReturn (EName "retval")] [];
  SReturn (EConst (KBytes []))].
(** common.py:26 class GenieClass *)
Definition src_GenieClass : class := mkClass Plain ["ABC"]
  []
  []
  []
  [("from_bytes", src_GenieClass_from_bytes); ("from_bytes_with_count", src_GenieClass_from_bytes_with_count); ("to_bytes", src_GenieClass_to_bytes); ("write_debug_string", src_GenieClass_write_debug_string); ("write_string", src_GenieClass_write_string); ("write_int_8", src_GenieClass_write_int_8); ("write_int_8_array", src_GenieClass_write_int_8_array); ("write_int_16", src_GenieClass_write_int_16); ("write_int_16_array", src_GenieClass_write_int_16_array); ("write_int_32", src_GenieClass_write_int_32); ("write_int_32_array", src_GenieClass_write_int_32_array); ("write_float", src_GenieClass_write_float); ("write_float_array", src_GenieClass_write_float_array); ("write_class", src_GenieClass_write_class); ("write_class_array", src_GenieClass_write_class_array)].

(** common.py:90-93 ByteHandler.__init__ *)
Definition src_ByteHandler___init__ : func := mkFunc Method "common" ["self"; "content"] [] [
  SSetAttr (EName "self") "content" (EName "content");
  SSetAttr (EName "self") "offset" (EConst (KInt 0));
  SSetAttr (EName "self") "version" (EAttr (EName "Version") "UNDEFINED")].
(** common.py:95-99 ByteHandler.consume_range *)
Definition src_ByteHandler_consume_range : func := mkFunc Method "common" ["self"; "length"] [] [
  SAssign "start" (EAttr (EName "self") "offset");
  SAssign "end" (EBin BAdd (EName "start") (EName "length"));
  SSetAttr (EName "self") "offset" (EName "end");
  SReturn (ESlice (EAttr (EName "self") "content") (EName "start") (EName "end"))].
(** common.py:101-105 ByteHandler.read_debug_string *)
Definition src_ByteHandler_read_debug_string : func := mkFunc Method "common" ["self"] [] [
  SAssign "tmp_size" (ECall (EAttr (EName "self") "read_int_16") [EKw "signed" (EConst (KBool false))]);
  SAssert (ECmp CEq (EName "tmp_size") (EConst (KInt 2656)));
  SAssign "size" (ECall (EAttr (EName "self") "read_int_16") [EKw "signed" (EConst (KBool false))]);
  SReturn (ECall (EAttr (EName "String") "from_bytes") [(ECall (EAttr (EName "self") "consume_range") [(EName "size")])])].
(** common.py:107-108 ByteHandler.read_string *)
Definition src_ByteHandler_read_string : func := mkFunc Method "common" ["self"; "length"] [] [
  SReturn (ECall (EAttr (EName "String") "from_bytes") [(ECall (EAttr (EName "self") "consume_range") [(EName "length")])])].
(** common.py:110-111 ByteHandler.read_int_8 *)
Definition src_ByteHandler_read_int_8 : func := mkFunc Method "common" ["self"] [] [
  SReturn (ECall (EAttr (EName "Int") "from_bytes") [(ECall (EAttr (EName "self") "consume_range") [(EConst (KInt 1))]); EKw "signed" (EConst (KBool false))])].
(** common.py:113-117 ByteHandler.read_int_8_array *)
Definition src_ByteHandler_read_int_8_array : func := mkFunc Method "common" ["self"; "size"] [] [
  SAssign "elements" (EList []);
  SFor "i" (ECall (EName "range") [(EName "size")]) [
    SExpr (ECall (EAttr (EName "elements") "append") [(ECall (EAttr (EName "self") "read_int_8") [])])];
  SReturn (EName "elements")].
(** common.py:119-122 ByteHandler.read_int_8_array_2 *)
Definition src_ByteHandler_read_int_8_array_2 : func := mkFunc Method "common" ["self"] [] [
  SAssign "element_0" (ECall (EAttr (EName "self") "read_int_8") []);
  SAssign "element_1" (ECall (EAttr (EName "self") "read_int_8") []);
  SReturn (ETuple [(EName "element_0"); (EName "element_1")])].
(** common.py:124-128 ByteHandler.read_int_8_array_3 *)
Definition src_ByteHandler_read_int_8_array_3 : func := mkFunc Method "common" ["self"] [] [
  SAssign "element_0" (ECall (EAttr (EName "self") "read_int_8") []);
  SAssign "element_1" (ECall (EAttr (EName "self") "read_int_8") []);
  SAssign "element_2" (ECall (EAttr (EName "self") "read_int_8") []);
  SReturn (ETuple [(EName "element_0"); (EName "element_1"); (EName "element_2")])].
(** common.py:130-136 ByteHandler.read_int_8_array_5 *)
Definition src_ByteHandler_read_int_8_array_5 : func := mkFunc Method "common" ["self"] [] [
  SAssign "element_0" (ECall (EAttr (EName "self") "read_int_8") []);
  SAssign "element_1" (ECall (EAttr (EName "self") "read_int_8") []);
  SAssign "element_2" (ECall (EAttr (EName "self") "read_int_8") []);
  SAssign "element_3" (ECall (EAttr (EName "self") "read_int_8") []);
  SAssign "element_4" (ECall (EAttr (EName "self") "read_int_8") []);
  SReturn (ETuple [(EName "element_0"); (EName "element_1"); (EName "element_2"); (EName "element_3"); (EName "element_4")])].
(** common.py:138-145 ByteHandler.read_int_8_array_6 *)
Definition src_ByteHandler_read_int_8_array_6 : func := mkFunc Method "common" ["self"] [] [
  SAssign "element_0" (ECall (EAttr (EName "self") "read_int_8") []);
  SAssign "element_1" (ECall (EAttr (EName "self") "read_int_8") []);
  SAssign "element_2" (ECall (EAttr (EName "self") "read_int_8") []);
  SAssign "element_3" (ECall (EAttr (EName "self") "read_int_8") []);
  SAssign "element_4" (ECall (EAttr (EName "self") "read_int_8") []);
  SAssign "element_5" (ECall (EAttr (EName "self") "read_int_8") []);
  SReturn (ETuple [(EName "element_0"); (EName "element_1"); (EName "element_2"); (EName "element_3"); (EName "element_4"); (EName "element_5")])].
(** common.py:147-159 ByteHandler.read_int_8_array_10 *)
Definition src_ByteHandler_read_int_8_array_10 : func := mkFunc Method "common" ["self"] [] [
  SAssign "element_0" (ECall (EAttr (EName "self") "read_int_8") []);
  SAssign "element_1" (ECall (EAttr (EName "self") "read_int_8") []);
  SAssign "element_2" (ECall (EAttr (EName "self") "read_int_8") []);
  SAssign "element_3" (ECall (EAttr (EName "self") "read_int_8") []);
  SAssign "element_4" (ECall (EAttr (EName "self") "read_int_8") []);
  SAssign "element_5" (ECall (EAttr (EName "self") "read_int_8") []);
  SAssign "element_6" (ECall (EAttr (EName "self") "read_int_8") []);
  SAssign "element_7" (ECall (EAttr (EName "self") "read_int_8") []);
  SAssign "element_8" (ECall (EAttr (EName "self") "read_int_8") []);
  SAssign "element_9" (ECall (EAttr (EName "self") "read_int_8") []);
  SReturn (ETuple [(EName "element_0"); (EName "element_1"); (EName "element_2"); (EName "element_3"); (EName "element_4"); (EName "element_5"); (EName "element_6"); (EName "element_7"); (EName "element_8"); (EName "element_9")])].
(** common.py:161-162 ByteHandler.read_int_16 *)
Definition src_ByteHandler_read_int_16 : func := mkFunc Method "common" ["self"; "signed"] [("signed", (EConst (KBool true)))] [
  SReturn (ECall (EAttr (EName "Int") "from_bytes") [(ECall (EAttr (EName "self") "consume_range") [(EConst (KInt 2))]); EKw "signed" (EName "signed")])].
(** common.py:164-168 ByteHandler.read_int_16_array *)
Definition src_ByteHandler_read_int_16_array : func := mkFunc Method "common" ["self"; "size"] [] [
  SAssign "elements" (EList []);
  SFor "i" (ECall (EName "range") [(EName "size")]) [
    SExpr (ECall (EAttr (EName "elements") "append") [(ECall (EAttr (EName "self") "read_int_16") [])])];
  SReturn (EName "elements")].
(** common.py:170-173 ByteHandler.read_int_16_array_2 *)
Definition src_ByteHandler_read_int_16_array_2 : func := mkFunc Method "common" ["self"] [] [
  SAssign "element_0" (ECall (EAttr (EName "self") "read_int_16") []);
  SAssign "element_1" (ECall (EAttr (EName "self") "read_int_16") []);
  SReturn (ETuple [(EName "element_0"); (EName "element_1")])].
(** common.py:175-179 ByteHandler.read_int_16_array_3 *)
Definition src_ByteHandler_read_int_16_array_3 : func := mkFunc Method "common" ["self"] [] [
  SAssign "element_0" (ECall (EAttr (EName "self") "read_int_16") []);
  SAssign "element_1" (ECall (EAttr (EName "self") "read_int_16") []);
  SAssign "element_2" (ECall (EAttr (EName "self") "read_int_16") []);
  SReturn (ETuple [(EName "element_0"); (EName "element_1"); (EName "element_2")])].
(** common.py:181-186 ByteHandler.read_int_16_array_4 *)
Definition src_ByteHandler_read_int_16_array_4 : func := mkFunc Method "common" ["self"] [] [
  SAssign "element_0" (ECall (EAttr (EName "self") "read_int_16") []);
  SAssign "element_1" (ECall (EAttr (EName "self") "read_int_16") []);
  SAssign "element_2" (ECall (EAttr (EName "self") "read_int_16") []);
  SAssign "element_3" (ECall (EAttr (EName "self") "read_int_16") []);
  SReturn (ETuple [(EName "element_0"); (EName "element_1"); (EName "element_2"); (EName "element_3")])].
(** common.py:188-195 ByteHandler.read_int_16_array_6 *)
Definition src_ByteHandler_read_int_16_array_6 : func := mkFunc Method "common" ["self"] [] [
  SAssign "element_0" (ECall (EAttr (EName "self") "read_int_16") []);
  SAssign "element_1" (ECall (EAttr (EName "self") "read_int_16") []);
  SAssign "element_2" (ECall (EAttr (EName "self") "read_int_16") []);
  SAssign "element_3" (ECall (EAttr (EName "self") "read_int_16") []);
  SAssign "element_4" (ECall (EAttr (EName "self") "read_int_16") []);
  SAssign "element_5" (ECall (EAttr (EName "self") "read_int_16") []);
  SReturn (ETuple [(EName "element_0"); (EName "element_1"); (EName "element_2"); (EName "element_3"); (EName "element_4"); (EName "element_5")])].
(** common.py:197-198 ByteHandler.read_int_32 *)
Definition src_ByteHandler_read_int_32 : func := mkFunc Method "common" ["self"; "signed"] [("signed", (EConst (KBool true)))] [
  SReturn (ECall (EAttr (EName "Int") "from_bytes") [(ECall (EAttr (EName "self") "consume_range") [(EConst (KInt 4))]); EKw "signed" (EName "signed")])].
(** common.py:200-204 ByteHandler.read_int_32_array *)
Definition src_ByteHandler_read_int_32_array : func := mkFunc Method "common" ["self"; "size"] [] [
  SAssign "elements" (EList []);
  SFor "i" (ECall (EName "range") [(EName "size")]) [
    SExpr (ECall (EAttr (EName "elements") "append") [(ECall (EAttr (EName "self") "read_int_32") [])])];
  SReturn (EName "elements")].
(** common.py:206-218 ByteHandler.read_int_32_array_10 *)
Definition src_ByteHandler_read_int_32_array_10 : func := mkFunc Method "common" ["self"] [] [
  SAssign "element_0" (ECall (EAttr (EName "self") "read_int_32") []);
  SAssign "element_1" (ECall (EAttr (EName "self") "read_int_32") []);
  SAssign "element_2" (ECall (EAttr (EName "self") "read_int_32") []);
  SAssign "element_3" (ECall (EAttr (EName "self") "read_int_32") []);
  SAssign "element_4" (ECall (EAttr (EName "self") "read_int_32") []);
  SAssign "element_5" (ECall (EAttr (EName "self") "read_int_32") []);
  SAssign "element_6" (ECall (EAttr (EName "self") "read_int_32") []);
  SAssign "element_7" (ECall (EAttr (EName "self") "read_int_32") []);
  SAssign "element_8" (ECall (EAttr (EName "self") "read_int_32") []);
  SAssign "element_9" (ECall (EAttr (EName "self") "read_int_32") []);
  SReturn (ETuple [(EName "element_0"); (EName "element_1"); (EName "element_2"); (EName "element_3"); (EName "element_4"); (EName "element_5"); (EName "element_6"); (EName "element_7"); (EName "element_8"); (EName "element_9")])].
(** common.py:220-221 ByteHandler.read_float *)
Definition src_ByteHandler_read_float : func := mkFunc Method "common" ["self"] [] [
  SReturn (ECall (EAttr (EName "Float") "from_bytes") [(ECall (EAttr (EName "self") "consume_range") [(EConst (KInt 4))])])].
(** common.py:223-227 ByteHandler.read_float_array *)
Definition src_ByteHandler_read_float_array : func := mkFunc Method "common" ["self"; "size"] [] [
  SAssign "elements" (EList []);
  SFor "i" (ECall (EName "range") [(EName "size")]) [
    SExpr (ECall (EAttr (EName "elements") "append") [(ECall (EAttr (EName "self") "read_float") [])])];
  SReturn (EName "elements")].
(** common.py:229-232 ByteHandler.read_float_array_2 *)
Definition src_ByteHandler_read_float_array_2 : func := mkFunc Method "common" ["self"] [] [
  SAssign "element_0" (ECall (EAttr (EName "self") "read_float") []);
  SAssign "element_1" (ECall (EAttr (EName "self") "read_float") []);
  SReturn (ETuple [(EName "element_0"); (EName "element_1")])].
(** common.py:234-238 ByteHandler.read_float_array_3 *)
Definition src_ByteHandler_read_float_array_3 : func := mkFunc Method "common" ["self"] [] [
  SAssign "element_0" (ECall (EAttr (EName "self") "read_float") []);
  SAssign "element_1" (ECall (EAttr (EName "self") "read_float") []);
  SAssign "element_2" (ECall (EAttr (EName "self") "read_float") []);
  SReturn (ETuple [(EName "element_0"); (EName "element_1"); (EName "element_2")])].
(** common.py:240-242 ByteHandler.read_class *)
Definition src_ByteHandler_read_class : func := mkFunc Method "common" ["self"; "class_"] [] [
  SAssign "element" (ECall (EAttr (EName "class_") "from_bytes") [(EName "self")]);
  SReturn (EName "element")].
(** common.py:244-249 ByteHandler.read_class_array *)
Definition src_ByteHandler_read_class_array : func := mkFunc Method "common" ["self"; "class_"; "size"] [] [
  SAssign "elements" (EList []);
  SFor "i" (ECall (EName "range") [(EName "size")]) [
    SAssign "element" (ECall (EAttr (EName "class_") "from_bytes") [(EName "self")]);
    SExpr (ECall (EAttr (EName "elements") "append") [(EName "element")])];
  SReturn (EName "elements")].
(** common.py:251-255 ByteHandler.read_class_array_3 *)
Definition src_ByteHandler_read_class_array_3 : func := mkFunc Method "common" ["self"; "class_"] [] [
  SAssign "element_0" (ECall (EAttr (EName "class_") "from_bytes") [(EName "self")]);
  SAssign "element_1" (ECall (EAttr (EName "class_") "from_bytes") [(EName "self")]);
  SAssign "element_2" (ECall (EAttr (EName "class_") "from_bytes") [(EName "self")]);
  SReturn (ETuple [(EName "element_0"); (EName "element_1"); (EName "element_2")])].
(** common.py:257-262 ByteHandler.read_class_array_4 *)
Definition src_ByteHandler_read_class_array_4 : func := mkFunc Method "common" ["self"; "class_"] [] [
  SAssign "element_0" (ECall (EAttr (EName "class_") "from_bytes") [(EName "self")]);
  SAssign "element_1" (ECall (EAttr (EName "class_") "from_bytes") [(EName "self")]);
  SAssign "element_2" (ECall (EAttr (EName "class_") "from_bytes") [(EName "self")]);
  SAssign "element_3" (ECall (EAttr (EName "class_") "from_bytes") [(EName "self")]);
  SReturn (ETuple [(EName "element_0"); (EName "element_1"); (EName "element_2"); (EName "element_3")])].
(** common.py:264-271 ByteHandler.read_class_array_with_pointers *)
Definition src_ByteHandler_read_class_array_with_pointers : func := mkFunc Method "common" ["self"; "class_"; "size"; "pointers"] [] [
  SAssign "elements" (EList []);
  SFor "i" (ECall (EName "range") [(EName "size")]) [
    SAssign "element" (EConst KNone);
    SIf (EIndex (EName "pointers") (EName "i")) [
      SAssign "element" (ECall (EAttr (EName "class_") "from_bytes") [(EName "self")])] [];
    SExpr (ECall (EAttr (EName "elements") "append") [(EName "element")])];
  SReturn (EName "elements")].
(** common.py:273-278 ByteHandler.read_class_array_with_param *)
Definition src_ByteHandler_read_class_array_with_param : func := mkFunc Method "common" ["self"; "class_"; "size"; "terrains_used_1"] [] [
  SAssign "elements" (EList []);
  SFor "i" (ECall (EName "range") [(EName "size")]) [
    SAssign "terrain_restriction" (ECall (EAttr (EName "class_") "from_bytes_with_count") [(EName "self"); (EName "terrains_used_1")]);
    SExpr (ECall (EAttr (EName "elements") "append") [(EName "terrain_restriction")])];
  SReturn (EName "elements")].
(** common.py:89 class ByteHandler *)
Definition src_ByteHandler : class := mkClass Plain []
  []
  []
  []
  [("__init__", src_ByteHandler___init__); ("consume_range", src_ByteHandler_consume_range); ("read_debug_string", src_ByteHandler_read_debug_string); ("read_string", src_ByteHandler_read_string); ("read_int_8", src_ByteHandler_read_int_8); ("read_int_8_array", src_ByteHandler_read_int_8_array); ("read_int_8_array_2", src_ByteHandler_read_int_8_array_2); ("read_int_8_array_3", src_ByteHandler_read_int_8_array_3); ("read_int_8_array_5", src_ByteHandler_read_int_8_array_5); ("read_int_8_array_6", src_ByteHandler_read_int_8_array_6); ("read_int_8_array_10", src_ByteHandler_read_int_8_array_10); ("read_int_16", src_ByteHandler_read_int_16); ("read_int_16_array", src_ByteHandler_read_int_16_array); ("read_int_16_array_2", src_ByteHandler_read_int_16_array_2); ("read_int_16_array_3", src_ByteHandler_read_int_16_array_3); ("read_int_16_array_4", src_ByteHandler_read_int_16_array_4); ("read_int_16_array_6", src_ByteHandler_read_int_16_array_6); ("read_int_32", src_ByteHandler_read_int_32); ("read_int_32_array", src_ByteHandler_read_int_32_array); ("read_int_32_array_10", src_ByteHandler_read_int_32_array_10); ("read_float", src_ByteHandler_read_float); ("read_float_array", src_ByteHandler_read_float_array); ("read_float_array_2", src_ByteHandler_read_float_array_2); ("read_float_array_3", src_ByteHandler_read_float_array_3); ("read_class", src_ByteHandler_read_class); ("read_class_array", src_ByteHandler_read_class_array); ("read_class_array_3", src_ByteHandler_read_class_array_3); ("read_class_array_4", src_ByteHandler_read_class_array_4); ("read_class_array_with_pointers", src_ByteHandler_read_class_array_with_pointers); ("read_class_array_with_param", src_ByteHandler_read_class_array_with_param)].

(** sound.py:16-23 SoundItem.from_bytes *)
Definition src_SoundItem_from_bytes : func := mkFunc ClassMethod "sound" ["cls"; "content"] [] [
  SReturn (ECall (EName "cls") [EKw "filename" (ECall (EAttr (EName "content") "read_debug_string") []); EKw "resource_id" (ECall (EAttr (EName "content") "read_int_32") []); EKw "probability" (ECall (EAttr (EName "content") "read_int_16") []); EKw "civilization" (ECall (EAttr (EName "content") "read_int_16") []); EKw "icon_set" (ECall (EAttr (EName "content") "read_int_16") [])])].
(** sound.py:25-32 SoundItem.to_bytes *)
Definition src_SoundItem_to_bytes : func := mkFunc Method "sound" ["self"; "version"] [] [
  SReturn (ECall (EAttr (EConst (KBytes [])) "join") [(EList [(ECall (EAttr (EName "self") "write_debug_string") [(EAttr (EName "self") "filename")]); (ECall (EAttr (EName "self") "write_int_32") [(EAttr (EName "self") "resource_id")]); (ECall (EAttr (EName "self") "write_int_16") [(EAttr (EName "self") "probability")]); (ECall (EAttr (EName "self") "write_int_16") [(EAttr (EName "self") "civilization")]); (ECall (EAttr (EName "self") "write_int_16") [(EAttr (EName "self") "icon_set")])])])].
(** sound.py:8 class SoundItem *)
Definition src_SoundItem : class := mkClass Dataclass ["GenieClass"]
  ["filename"; "resource_id"; "probability"; "civilization"; "icon_set"]
  []
  []
  [("from_bytes", src_SoundItem_from_bytes); ("to_bytes", src_SoundItem_to_bytes)].

(** sound.py:44-57 Sound.from_bytes *)
Definition src_Sound_from_bytes : func := mkFunc ClassMethod "sound" ["cls"; "content"] [] [
  SAssign "id_" (ECall (EAttr (EName "content") "read_int_16") []);
  SAssign "play_delay" (ECall (EAttr (EName "content") "read_int_16") []);
  SAssign "items_size" (ECall (EAttr (EName "content") "read_int_16") []);
  SAssign "cache_time" (ECall (EAttr (EName "content") "read_int_32") []);
  SAssign "total_probability" (ECall (EAttr (EName "content") "read_int_16") []);
  SAssign "items" (ECall (EAttr (EName "content") "read_class_array") [(EName "SoundItem"); (EName "items_size")]);
  SReturn (ECall (EName "cls") [EKw "id" (EName "id_"); EKw "play_delay" (EName "play_delay"); EKw "cache_time" (EName "cache_time"); EKw "total_probability" (EName "total_probability"); EKw "items" (EName "items")])].
(** sound.py:59-67 Sound.to_bytes *)
Definition src_Sound_to_bytes : func := mkFunc Method "sound" ["self"; "version"] [] [
  SReturn (ECall (EAttr (EConst (KBytes [])) "join") [(EList [(ECall (EAttr (EName "self") "write_int_16") [(EAttr (EName "self") "id")]); (ECall (EAttr (EName "self") "write_int_16") [(EAttr (EName "self") "play_delay")]); (ECall (EAttr (EName "self") "write_int_16") [(ECall (EName "len") [(EAttr (EName "self") "items")])]); (ECall (EAttr (EName "self") "write_int_32") [(EAttr (EName "self") "cache_time")]); (ECall (EAttr (EName "self") "write_int_16") [(EAttr (EName "self") "total_probability")]); (ECall (EAttr (EName "self") "write_class_array") [(EAttr (EName "self") "items"); (EName "version")])])])].
(** sound.py:36 class Sound *)
Definition src_Sound : class := mkClass Dataclass ["GenieClass"]
  ["id"; "play_delay"; "cache_time"; "total_probability"; "items"]
  []
  []
  [("from_bytes", src_Sound_from_bytes); ("to_bytes", src_Sound_to_bytes)].

(** playercolour.py:20-31 PlayerColour.from_bytes *)
Definition src_PlayerColour_from_bytes : func := mkFunc ClassMethod "playercolour" ["cls"; "content"] [] [
  SReturn (ECall (EName "cls") [EKw "id" (ECall (EAttr (EName "content") "read_int_32") []); EKw "player_color_base" (ECall (EAttr (EName "content") "read_int_32") []); EKw "unit_outline_color" (ECall (EAttr (EName "content") "read_int_32") []); EKw "unit_selection_color_1" (ECall (EAttr (EName "content") "read_int_32") []); EKw "unit_selection_color_2" (ECall (EAttr (EName "content") "read_int_32") []); EKw "minimap_color" (ECall (EAttr (EName "content") "read_int_32") []); EKw "minimap_color_2" (ECall (EAttr (EName "content") "read_int_32") []); EKw "minimap_color_3" (ECall (EAttr (EName "content") "read_int_32") []); EKw "statistics_text" (ECall (EAttr (EName "content") "read_int_32") [])])].
(** playercolour.py:33-44 PlayerColour.to_bytes *)
Definition src_PlayerColour_to_bytes : func := mkFunc Method "playercolour" ["self"; "version"] [] [
  SReturn (ECall (EAttr (EConst (KBytes [])) "join") [(EList [(ECall (EAttr (EName "self") "write_int_32") [(EAttr (EName "self") "id")]); (ECall (EAttr (EName "self") "write_int_32") [(EAttr (EName "self") "player_color_base")]); (ECall (EAttr (EName "self") "write_int_32") [(EAttr (EName "self") "unit_outline_color")]); (ECall (EAttr (EName "self") "write_int_32") [(EAttr (EName "self") "unit_selection_color_1")]); (ECall (EAttr (EName "self") "write_int_32") [(EAttr (EName "self") "unit_selection_color_2")]); (ECall (EAttr (EName "self") "write_int_32") [(EAttr (EName "self") "minimap_color")]); (ECall (EAttr (EName "self") "write_int_32") [(EAttr (EName "self") "minimap_color_2")]); (ECall (EAttr (EName "self") "write_int_32") [(EAttr (EName "self") "minimap_color_3")]); (ECall (EAttr (EName "self") "write_int_32") [(EAttr (EName "self") "statistics_text")])])])].
(** playercolour.py:8 class PlayerColour *)
Definition src_PlayerColour : class := mkClass Dataclass ["GenieClass"]
  ["id"; "player_color_base"; "unit_outline_color"; "unit_selection_color_1"; "unit_selection_color_2"; "minimap_color"; "minimap_color_2"; "minimap_color_3"; "statistics_text"]
  []
  []
  [("from_bytes", src_PlayerColour_from_bytes); ("to_bytes", src_PlayerColour_to_bytes)].

(** effect.py:16-23 EffectCommand.from_bytes *)
Definition src_EffectCommand_from_bytes : func := mkFunc ClassMethod "effect" ["cls"; "content"] [] [
  SReturn (ECall (EName "cls") [EKw "type" (ECall (EAttr (EName "content") "read_int_8") []); EKw "a" (ECall (EAttr (EName "content") "read_int_16") []); EKw "b" (ECall (EAttr (EName "content") "read_int_16") []); EKw "c" (ECall (EAttr (EName "content") "read_int_16") []); EKw "d" (ECall (EAttr (EName "content") "read_float") [])])].
(** effect.py:25-32 EffectCommand.to_bytes *)
Definition src_EffectCommand_to_bytes : func := mkFunc Method "effect" ["self"; "version"] [] [
  SReturn (ECall (EAttr (EConst (KBytes [])) "join") [(EList [(ECall (EAttr (EName "self") "write_int_8") [(EAttr (EName "self") "type")]); (ECall (EAttr (EName "self") "write_int_16") [(EAttr (EName "self") "a")]); (ECall (EAttr (EName "self") "write_int_16") [(EAttr (EName "self") "b")]); (ECall (EAttr (EName "self") "write_int_16") [(EAttr (EName "self") "c")]); (ECall (EAttr (EName "self") "write_float") [(EAttr (EName "self") "d")])])])].
(** effect.py:8 class EffectCommand *)
Definition src_EffectCommand : class := mkClass Dataclass ["GenieClass"]
  ["type"; "a"; "b"; "c"; "d"]
  []
  []
  [("from_bytes", src_EffectCommand_from_bytes); ("to_bytes", src_EffectCommand_to_bytes)].

(** effect.py:41-48 Effect.from_bytes *)
Definition src_Effect_from_bytes : func := mkFunc ClassMethod "effect" ["cls"; "content"] [] [
  SAssign "name" (ECall (EAttr (EName "content") "read_debug_string") []);
  SAssign "effect_command_count" (ECall (EAttr (EName "content") "read_int_16") []);
  SAssign "effect_commands" (ECall (EAttr (EName "content") "read_class_array") [(EName "EffectCommand"); (EName "effect_command_count")]);
  SReturn (ECall (EName "cls") [EKw "name" (EName "name"); EKw "effect_commands" (EName "effect_commands")])].
(** effect.py:50-55 Effect.to_bytes *)
Definition src_Effect_to_bytes : func := mkFunc Method "effect" ["self"; "version"] [] [
  SReturn (ECall (EAttr (EConst (KBytes [])) "join") [(EList [(ECall (EAttr (EName "self") "write_debug_string") [(EAttr (EName "self") "name")]); (ECall (EAttr (EName "self") "write_int_16") [(ECall (EName "len") [(EAttr (EName "self") "effect_commands")])]); (ECall (EAttr (EName "self") "write_class_array") [(EAttr (EName "self") "effect_commands"); (EName "version")])])])].
(** effect.py:36 class Effect *)
Definition src_Effect : class := mkClass Dataclass ["GenieClass"]
  ["name"; "effect_commands"]
  []
  []
  [("from_bytes", src_Effect_from_bytes); ("to_bytes", src_Effect_to_bytes)].

(** terrainrestriction.py:15-21 TerrainPassGraphic.from_bytes *)
Definition src_TerrainPassGraphic_from_bytes : func := mkFunc ClassMethod "terrainrestriction" ["cls"; "content"] [] [
  SReturn (ECall (EName "cls") [EKw "exit_tile_sprite_id" (ECall (EAttr (EName "content") "read_int_32") []); EKw "enter_tile_sprite_id" (ECall (EAttr (EName "content") "read_int_32") []); EKw "walk_tile_sprite_id" (ECall (EAttr (EName "content") "read_int_32") []); EKw "walk_sprite_rate" (ECall (EAttr (EName "content") "read_int_32") [])])].
(** terrainrestriction.py:23-29 TerrainPassGraphic.to_bytes *)
Definition src_TerrainPassGraphic_to_bytes : func := mkFunc Method "terrainrestriction" ["self"; "version"] [] [
  SReturn (ECall (EAttr (EConst (KBytes [])) "join") [(EList [(ECall (EAttr (EName "self") "write_int_32") [(EAttr (EName "self") "exit_tile_sprite_id")]); (ECall (EAttr (EName "self") "write_int_32") [(EAttr (EName "self") "enter_tile_sprite_id")]); (ECall (EAttr (EName "self") "write_int_32") [(EAttr (EName "self") "walk_tile_sprite_id")]); (ECall (EAttr (EName "self") "write_int_32") [(EAttr (EName "self") "walk_sprite_rate")])])])].
(** terrainrestriction.py:8 class TerrainPassGraphic *)
Definition src_TerrainPassGraphic : class := mkClass Dataclass ["GenieClass"]
  ["exit_tile_sprite_id"; "enter_tile_sprite_id"; "walk_tile_sprite_id"; "walk_sprite_rate"]
  []
  []
  [("from_bytes", src_TerrainPassGraphic_from_bytes); ("to_bytes", src_TerrainPassGraphic_to_bytes)].

(** terrainrestriction.py:38-42 TerrainRestriction.from_bytes_with_count *)
Definition src_TerrainRestriction_from_bytes_with_count : func := mkFunc ClassMethod "terrainrestriction" ["cls"; "content"; "terrain_count"] [] [
  SReturn (ECall (EName "cls") [EKw "passable_buildable_dmg_multiplier" (ECall (EAttr (EName "content") "read_float_array") [(EName "terrain_count")]); EKw "terrain_pass_graphics" (ECall (EAttr (EName "content") "read_class_array") [(EName "TerrainPassGraphic"); (EName "terrain_count")])])].
(** terrainrestriction.py:44-49 TerrainRestriction.to_bytes *)
Definition src_TerrainRestriction_to_bytes : func := mkFunc Method "terrainrestriction" ["self"; "version"] [] [
  SAssert (ECmp CEq (ECall (EName "len") [(EAttr (EName "self") "passable_buildable_dmg_multiplier")]) (ECall (EName "len") [(EAttr (EName "self") "terrain_pass_graphics")]));
  SReturn (ECall (EAttr (EConst (KBytes [])) "join") [(EList [(ECall (EAttr (EName "self") "write_float_array") [(EAttr (EName "self") "passable_buildable_dmg_multiplier")]); (ECall (EAttr (EName "self") "write_class_array") [(EAttr (EName "self") "terrain_pass_graphics"); (EName "version")])])])].
(** terrainrestriction.py:33 class TerrainRestriction *)
Definition src_TerrainRestriction : class := mkClass Dataclass ["GenieClass"]
  ["passable_buildable_dmg_multiplier"; "terrain_pass_graphics"]
  []
  []
  [("from_bytes_with_count", src_TerrainRestriction_from_bytes_with_count); ("to_bytes", src_TerrainRestriction_to_bytes)].

(** graphic.py:18-27 GraphicDelta.from_bytes *)
Definition src_GraphicDelta_from_bytes : func := mkFunc ClassMethod "graphic" ["cls"; "content"] [] [
  SReturn (ECall (EName "cls") [EKw "graphic_id" (ECall (EAttr (EName "content") "read_int_16") []); EKw "padding_1" (ECall (EAttr (EName "content") "read_int_16") []); EKw "sprite_ptr" (ECall (EAttr (EName "content") "read_int_32") []); EKw "offset_x" (ECall (EAttr (EName "content") "read_int_16") []); EKw "offset_y" (ECall (EAttr (EName "content") "read_int_16") []); EKw "display_angle" (ECall (EAttr (EName "content") "read_int_16") []); EKw "padding_2" (ECall (EAttr (EName "content") "read_int_16") [])])].
(** graphic.py:29-38 GraphicDelta.to_bytes *)
Definition src_GraphicDelta_to_bytes : func := mkFunc Method "graphic" ["self"; "version"] [] [
  SReturn (ECall (EAttr (EConst (KBytes [])) "join") [(EList [(ECall (EAttr (EName "self") "write_int_16") [(EAttr (EName "self") "graphic_id")]); (ECall (EAttr (EName "self") "write_int_16") [(EAttr (EName "self") "padding_1")]); (ECall (EAttr (EName "self") "write_int_32") [(EAttr (EName "self") "sprite_ptr")]); (ECall (EAttr (EName "self") "write_int_16") [(EAttr (EName "self") "offset_x")]); (ECall (EAttr (EName "self") "write_int_16") [(EAttr (EName "self") "offset_y")]); (ECall (EAttr (EName "self") "write_int_16") [(EAttr (EName "self") "display_angle")]); (ECall (EAttr (EName "self") "write_int_16") [(EAttr (EName "self") "padding_2")])])])].
(** graphic.py:8 class GraphicDelta *)
Definition src_GraphicDelta : class := mkClass Dataclass ["GenieClass"]
  ["graphic_id"; "padding_1"; "sprite_ptr"; "offset_x"; "offset_y"; "display_angle"; "padding_2"]
  []
  []
  [("from_bytes", src_GraphicDelta_from_bytes); ("to_bytes", src_GraphicDelta_to_bytes)].

(** graphic.py:54-65 GraphicAngleSound.from_bytes *)
Definition src_GraphicAngleSound_from_bytes : func := mkFunc ClassMethod "graphic" ["cls"; "content"] [] [
  SReturn (ECall (EName "cls") [EKw "frame_num" (ECall (EAttr (EName "content") "read_int_16") []); EKw "sound_id" (ECall (EAttr (EName "content") "read_int_16") []); EKw "wwise_sound_id" (ECall (EAttr (EName "content") "read_int_32") []); EKw "frame_num_2" (ECall (EAttr (EName "content") "read_int_16") []); EKw "sound_id_2" (ECall (EAttr (EName "content") "read_int_16") []); EKw "wwise_sound_id_2" (ECall (EAttr (EName "content") "read_int_32") []); EKw "frame_num_3" (ECall (EAttr (EName "content") "read_int_16") []); EKw "sound_id_3" (ECall (EAttr (EName "content") "read_int_16") []); EKw "wwise_sound_id_3" (ECall (EAttr (EName "content") "read_int_32") [])])].
(** graphic.py:67-78 GraphicAngleSound.to_bytes *)
Definition src_GraphicAngleSound_to_bytes : func := mkFunc Method "graphic" ["self"; "version"] [] [
  SReturn (ECall (EAttr (EConst (KBytes [])) "join") [(EList [(ECall (EAttr (EName "self") "write_int_16") [(EAttr (EName "self") "frame_num")]); (ECall (EAttr (EName "self") "write_int_16") [(EAttr (EName "self") "sound_id")]); (ECall (EAttr (EName "self") "write_int_32") [(EAttr (EName "self") "wwise_sound_id")]); (ECall (EAttr (EName "self") "write_int_16") [(EAttr (EName "self") "frame_num_2")]); (ECall (EAttr (EName "self") "write_int_16") [(EAttr (EName "self") "sound_id_2")]); (ECall (EAttr (EName "self") "write_int_32") [(EAttr (EName "self") "wwise_sound_id_2")]); (ECall (EAttr (EName "self") "write_int_16") [(EAttr (EName "self") "frame_num_3")]); (ECall (EAttr (EName "self") "write_int_16") [(EAttr (EName "self") "sound_id_3")]); (ECall (EAttr (EName "self") "write_int_32") [(EAttr (EName "self") "wwise_sound_id_3")])])])].
(** graphic.py:42 class GraphicAngleSound *)
Definition src_GraphicAngleSound : class := mkClass Dataclass ["GenieClass"]
  ["frame_num"; "sound_id"; "wwise_sound_id"; "frame_num_2"; "sound_id_2"; "wwise_sound_id_2"; "frame_num_3"; "sound_id_3"; "wwise_sound_id_3"]
  []
  []
  [("from_bytes", src_GraphicAngleSound_from_bytes); ("to_bytes", src_GraphicAngleSound_to_bytes)].

(** graphic.py:109-160 Graphic.from_bytes *)
Definition src_Graphic_from_bytes : func := mkFunc ClassMethod "graphic" ["cls"; "content"] [] [
  SAssign "name" (ECall (EAttr (EName "content") "read_debug_string") []);
  SAssign "file_name" (ECall (EAttr (EName "content") "read_debug_string") []);
  SAssign "particle_effect_name" (ECall (EAttr (EName "content") "read_debug_string") []);
  SAssign "slp" (ECall (EAttr (EName "content") "read_int_32") []);
  SAssign "is_loaded" (ECall (EAttr (EName "content") "read_int_8") []);
  SAssign "old_color_flag" (ECall (EAttr (EName "content") "read_int_8") []);
  SAssign "layer" (ECall (EAttr (EName "content") "read_int_8") []);
  SAssign "player_color" (ECall (EAttr (EName "content") "read_int_16") []);
  SAssign "transparent_selection" (ECall (EAttr (EName "content") "read_int_8") []);
  SAssign "coordinates" (ECall (EAttr (EName "content") "read_int_16_array_4") []);
  SAssign "delta_count" (ECall (EAttr (EName "content") "read_int_16") []);
  SAssign "sound_id" (ECall (EAttr (EName "content") "read_int_16") []);
  SAssign "wwise_sound_id" (ECall (EAttr (EName "content") "read_int_32") []);
  SAssign "angle_sounds_used" (ECall (EAttr (EName "content") "read_int_8") []);
  SAssign "frame_count" (ECall (EAttr (EName "content") "read_int_16") []);
  SAssign "angle_count" (ECall (EAttr (EName "content") "read_int_16") []);
  SAssign "speed_multiplier" (ECall (EAttr (EName "content") "read_float") []);
  SAssign "frame_duration" (ECall (EAttr (EName "content") "read_float") []);
  SAssign "replay_delay" (ECall (EAttr (EName "content") "read_float") []);
  SAssign "sequence_type" (ECall (EAttr (EName "content") "read_int_8") []);
  SAssign "id_" (ECall (EAttr (EName "content") "read_int_16") []);
  SAssign "mirroring_mode" (ECall (EAttr (EName "content") "read_int_8") []);
  SAssign "editor_flag" (ECall (EAttr (EName "content") "read_int_8") []);
  SAssign "deltas" (ECall (EAttr (EName "content") "read_class_array") [(EName "GraphicDelta"); (EName "delta_count")]);
  SAssign "angle_sounds" (EIf (EName "angle_sounds_used") (ECall (EAttr (EName "content") "read_class_array") [(EName "GraphicAngleSound"); (EName "angle_count")]) (EList []));
  SReturn (ECall (EName "cls") [EKw "name" (EName "name"); EKw "file_name" (EName "file_name"); EKw "particle_effect_name" (EName "particle_effect_name"); EKw "slp" (EName "slp"); EKw "is_loaded" (EName "is_loaded"); EKw "old_color_flag" (EName "old_color_flag"); EKw "layer" (EName "layer"); EKw "player_color" (EName "player_color"); EKw "transparent_selection" (EName "transparent_selection"); EKw "coordinates" (EName "coordinates"); EKw "sound_id" (EName "sound_id"); EKw "wwise_sound_id" (EName "wwise_sound_id"); EKw "angle_sounds_used" (EName "angle_sounds_used"); EKw "frame_count" (EName "frame_count"); EKw "angle_count" (EName "angle_count"); EKw "speed_multiplier" (EName "speed_multiplier"); EKw "frame_duration" (EName "frame_duration"); EKw "replay_delay" (EName "replay_delay"); EKw "sequence_type" (EName "sequence_type"); EKw "id" (EName "id_"); EKw "mirroring_mode" (EName "mirroring_mode"); EKw "editor_flag" (EName "editor_flag"); EKw "deltas" (EName "deltas"); EKw "angle_sounds" (EName "angle_sounds")])].
(** graphic.py:162-189 Graphic.to_bytes *)
Definition src_Graphic_to_bytes : func := mkFunc Method "graphic" ["self"; "version"] [] [
  SReturn (ECall (EAttr (EConst (KBytes [])) "join") [(EList [(ECall (EAttr (EName "self") "write_debug_string") [(EAttr (EName "self") "name")]); (ECall (EAttr (EName "self") "write_debug_string") [(EAttr (EName "self") "file_name")]); (ECall (EAttr (EName "self") "write_debug_string") [(EAttr (EName "self") "particle_effect_name")]); (ECall (EAttr (EName "self") "write_int_32") [(EAttr (EName "self") "slp")]); (ECall (EAttr (EName "self") "write_int_8") [(EAttr (EName "self") "is_loaded")]); (ECall (EAttr (EName "self") "write_int_8") [(EAttr (EName "self") "old_color_flag")]); (ECall (EAttr (EName "self") "write_int_8") [(EAttr (EName "self") "layer")]); (ECall (EAttr (EName "self") "write_int_16") [(EAttr (EName "self") "player_color")]); (ECall (EAttr (EName "self") "write_int_8") [(EAttr (EName "self") "transparent_selection")]); (ECall (EAttr (EName "self") "write_int_16_array") [(EAttr (EName "self") "coordinates")]); (ECall (EAttr (EName "self") "write_int_16") [(ECall (EName "len") [(EAttr (EName "self") "deltas")])]); (ECall (EAttr (EName "self") "write_int_16") [(EAttr (EName "self") "sound_id")]); (ECall (EAttr (EName "self") "write_int_32") [(EAttr (EName "self") "wwise_sound_id")]); (ECall (EAttr (EName "self") "write_int_8") [(EAttr (EName "self") "angle_sounds_used")]); (ECall (EAttr (EName "self") "write_int_16") [(EAttr (EName "self") "frame_count")]); (ECall (EAttr (EName "self") "write_int_16") [(EAttr (EName "self") "angle_count")]); (ECall (EAttr (EName "self") "write_float") [(EAttr (EName "self") "speed_multiplier")]); (ECall (EAttr (EName "self") "write_float") [(EAttr (EName "self") "frame_duration")]); (ECall (EAttr (EName "self") "write_float") [(EAttr (EName "self") "replay_delay")]); (ECall (EAttr (EName "self") "write_int_8") [(EAttr (EName "self") "sequence_type")]); (ECall (EAttr (EName "self") "write_int_16") [(EAttr (EName "self") "id")]); (ECall (EAttr (EName "self") "write_int_8") [(EAttr (EName "self") "mirroring_mode")]); (ECall (EAttr (EName "self") "write_int_8") [(EAttr (EName "self") "editor_flag")]); (ECall (EAttr (EName "self") "write_class_array") [(EAttr (EName "self") "deltas"); (EName "version")]); (ECall (EAttr (EName "self") "write_class_array") [(EAttr (EName "self") "angle_sounds"); (EName "version")])])])].
(** graphic.py:82 class Graphic *)
Definition src_Graphic : class := mkClass Dataclass ["GenieClass"]
  ["name"; "file_name"; "particle_effect_name"; "slp"; "is_loaded"; "old_color_flag"; "layer"; "player_color"; "transparent_selection"; "coordinates"; "sound_id"; "wwise_sound_id"; "angle_sounds_used"; "frame_count"; "angle_count"; "speed_multiplier"; "frame_duration"; "replay_delay"; "sequence_type"; "id"; "mirroring_mode"; "editor_flag"; "deltas"; "angle_sounds"]
  []
  []
  [("from_bytes", src_Graphic_from_bytes); ("to_bytes", src_Graphic_to_bytes)].

(** terrainblock.py:14-19 FrameData.from_bytes *)
Definition src_FrameData_from_bytes : func := mkFunc ClassMethod "terrainblock" ["cls"; "content"] [] [
  SReturn (ECall (EName "cls") [EKw "frame_count" (ECall (EAttr (EName "content") "read_int_16") []); EKw "angle_count" (ECall (EAttr (EName "content") "read_int_16") []); EKw "shape_id" (ECall (EAttr (EName "content") "read_int_16") [])])].
(** terrainblock.py:21-26 FrameData.to_bytes *)
Definition src_FrameData_to_bytes : func := mkFunc Method "terrainblock" ["self"; "version"] [] [
  SReturn (ECall (EAttr (EConst (KBytes [])) "join") [(EList [(ECall (EAttr (EName "self") "write_int_16") [(EAttr (EName "self") "frame_count")]); (ECall (EAttr (EName "self") "write_int_16") [(EAttr (EName "self") "angle_count")]); (ECall (EAttr (EName "self") "write_int_16") [(EAttr (EName "self") "shape_id")])])])].
(** terrainblock.py:8 class FrameData *)
Definition src_FrameData : class := mkClass Dataclass ["GenieClass"]
  ["frame_count"; "angle_count"; "shape_id"]
  []
  []
  [("from_bytes", src_FrameData_from_bytes); ("to_bytes", src_FrameData_to_bytes)].

(** terrainblock.py:71-111 Terrain.from_bytes *)
Definition src_Terrain_from_bytes : func := mkFunc ClassMethod "terrainblock" ["cls"; "content"] [] [
  SReturn (ECall (EName "cls") [EKw "enabled" (ECall (EAttr (EName "content") "read_int_8") []); EKw "random" (ECall (EAttr (EName "content") "read_int_8") []); EKw "is_water" (ECall (EAttr (EName "content") "read_int_8") []); EKw "hide_in_editor" (ECall (EAttr (EName "content") "read_int_8") []); EKw "string_id" (ECall (EAttr (EName "content") "read_int_32") []); EKw "name" (ECall (EAttr (EName "content") "read_debug_string") []); EKw "name_2" (ECall (EAttr (EName "content") "read_debug_string") []); EKw "slp" (ECall (EAttr (EName "content") "read_int_32") []); EKw "shape_ptr" (ECall (EAttr (EName "content") "read_int_32") []); EKw "sound_id" (ECall (EAttr (EName "content") "read_int_32") []); EKw "wwise_sound_id" (ECall (EAttr (EName "content") "read_int_32") [EKw "signed" (EConst (KBool false))]); EKw "wwise_sound_stop_id" (ECall (EAttr (EName "content") "read_int_32") [EKw "signed" (EConst (KBool false))]); EKw "blend_priority" (ECall (EAttr (EName "content") "read_int_32") []); EKw "blend_type" (ECall (EAttr (EName "content") "read_int_32") []); EKw "overlay_mask_name" (ECall (EAttr (EName "content") "read_debug_string") []); EKw "colors" (ECall (EAttr (EName "content") "read_int_8_array_3") []); EKw "cliff_colors" (ECall (EAttr (EName "content") "read_int_8_array_2") []); EKw "passable_terrain" (ECall (EAttr (EName "content") "read_int_8") []); EKw "impassable_terrain" (ECall (EAttr (EName "content") "read_int_8") []); EKw "is_animated" (ECall (EAttr (EName "content") "read_int_8") []); EKw "animation_frames" (ECall (EAttr (EName "content") "read_int_16") []); EKw "pause_frames" (ECall (EAttr (EName "content") "read_int_16") []); EKw "interval" (ECall (EAttr (EName "content") "read_float") []); EKw "pause_between_loops" (ECall (EAttr (EName "content") "read_float") []); EKw "frame" (ECall (EAttr (EName "content") "read_int_16") []); EKw "draw_frame" (ECall (EAttr (EName "content") "read_int_16") []); EKw "animate_last" (ECall (EAttr (EName "content") "read_float") []); EKw "frame_changed" (ECall (EAttr (EName "content") "read_int_8") []); EKw "drawn" (ECall (EAttr (EName "content") "read_int_8") []); EKw "frame_data" (ECall (EAttr (EName "content") "read_class_array") [(EName "FrameData"); (EName "TILE_TYPE_COUNT")]); EKw "terrain_to_draw" (ECall (EAttr (EName "content") "read_int_16") []); EKw "terrain_dimensions" (ECall (EAttr (EName "content") "read_int_16_array_2") []); EKw "terrain_unit_masked_density" (ECall (EAttr (EName "content") "read_int_16_array") [(EName "TERRAIN_UNITS_SIZE")]); EKw "terrain_unit_id" (ECall (EAttr (EName "content") "read_int_16_array") [(EName "TERRAIN_UNITS_SIZE")]); EKw "terrain_unit_density" (ECall (EAttr (EName "content") "read_int_16_array") [(EName "TERRAIN_UNITS_SIZE")]); EKw "terrain_unit_centering" (ECall (EAttr (EName "content") "read_int_8_array") [(EName "TERRAIN_UNITS_SIZE")]); EKw "number_of_terrain_units_used" (ECall (EAttr (EName "content") "read_int_16") []); EKw "phantom" (ECall (EAttr (EName "content") "read_int_16") [])])].
(** terrainblock.py:113-153 Terrain.to_bytes *)
Definition src_Terrain_to_bytes : func := mkFunc Method "terrainblock" ["self"; "version"] [] [
  SReturn (ECall (EAttr (EConst (KBytes [])) "join") [(EList [(ECall (EAttr (EName "self") "write_int_8") [(EAttr (EName "self") "enabled")]); (ECall (EAttr (EName "self") "write_int_8") [(EAttr (EName "self") "random")]); (ECall (EAttr (EName "self") "write_int_8") [(EAttr (EName "self") "is_water")]); (ECall (EAttr (EName "self") "write_int_8") [(EAttr (EName "self") "hide_in_editor")]); (ECall (EAttr (EName "self") "write_int_32") [(EAttr (EName "self") "string_id")]); (ECall (EAttr (EName "self") "write_debug_string") [(EAttr (EName "self") "name")]); (ECall (EAttr (EName "self") "write_debug_string") [(EAttr (EName "self") "name_2")]); (ECall (EAttr (EName "self") "write_int_32") [(EAttr (EName "self") "slp")]); (ECall (EAttr (EName "self") "write_int_32") [(EAttr (EName "self") "shape_ptr")]); (ECall (EAttr (EName "self") "write_int_32") [(EAttr (EName "self") "sound_id")]); (ECall (EAttr (EName "self") "write_int_32") [(EAttr (EName "self") "wwise_sound_id"); EKw "signed" (EConst (KBool false))]); (ECall (EAttr (EName "self") "write_int_32") [(EAttr (EName "self") "wwise_sound_stop_id"); EKw "signed" (EConst (KBool false))]); (ECall (EAttr (EName "self") "write_int_32") [(EAttr (EName "self") "blend_priority")]); (ECall (EAttr (EName "self") "write_int_32") [(EAttr (EName "self") "blend_type")]); (ECall (EAttr (EName "self") "write_debug_string") [(EAttr (EName "self") "overlay_mask_name")]); (ECall (EAttr (EName "self") "write_int_8_array") [(EAttr (EName "self") "colors")]); (ECall (EAttr (EName "self") "write_int_8_array") [(EAttr (EName "self") "cliff_colors")]); (ECall (EAttr (EName "self") "write_int_8") [(EAttr (EName "self") "passable_terrain")]); (ECall (EAttr (EName "self") "write_int_8") [(EAttr (EName "self") "impassable_terrain")]); (ECall (EAttr (EName "self") "write_int_8") [(EAttr (EName "self") "is_animated")]); (ECall (EAttr (EName "self") "write_int_16") [(EAttr (EName "self") "animation_frames")]); (ECall (EAttr (EName "self") "write_int_16") [(EAttr (EName "self") "pause_frames")]); (ECall (EAttr (EName "self") "write_float") [(EAttr (EName "self") "interval")]); (ECall (EAttr (EName "self") "write_float") [(EAttr (EName "self") "pause_between_loops")]); (ECall (EAttr (EName "self") "write_int_16") [(EAttr (EName "self") "frame")]); (ECall (EAttr (EName "self") "write_int_16") [(EAttr (EName "self") "draw_frame")]); (ECall (EAttr (EName "self") "write_float") [(EAttr (EName "self") "animate_last")]); (ECall (EAttr (EName "self") "write_int_8") [(EAttr (EName "self") "frame_changed")]); (ECall (EAttr (EName "self") "write_int_8") [(EAttr (EName "self") "drawn")]); (ECall (EAttr (EName "self") "write_class_array") [(EAttr (EName "self") "frame_data"); (EName "version")]); (ECall (EAttr (EName "self") "write_int_16") [(EAttr (EName "self") "terrain_to_draw")]); (ECall (EAttr (EName "self") "write_int_16_array") [(EAttr (EName "self") "terrain_dimensions")]); (ECall (EAttr (EName "self") "write_int_16_array") [(EAttr (EName "self") "terrain_unit_masked_density")]); (ECall (EAttr (EName "self") "write_int_16_array") [(EAttr (EName "self") "terrain_unit_id")]); (ECall (EAttr (EName "self") "write_int_16_array") [(EAttr (EName "self") "terrain_unit_density")]); (ECall (EAttr (EName "self") "write_int_8_array") [(EAttr (EName "self") "terrain_unit_centering")]); (ECall (EAttr (EName "self") "write_int_16") [(EAttr (EName "self") "number_of_terrain_units_used")]); (ECall (EAttr (EName "self") "write_int_16") [(EAttr (EName "self") "phantom")])])])].
(** terrainblock.py:30 class Terrain *)
Definition src_Terrain : class := mkClass Dataclass ["GenieClass"]
  ["enabled"; "random"; "is_water"; "hide_in_editor"; "string_id"; "name"; "name_2"; "slp"; "shape_ptr"; "sound_id"; "wwise_sound_id"; "wwise_sound_stop_id"; "blend_priority"; "blend_type"; "overlay_mask_name"; "colors"; "cliff_colors"; "passable_terrain"; "impassable_terrain"; "is_animated"; "animation_frames"; "pause_frames"; "interval"; "pause_between_loops"; "frame"; "draw_frame"; "animate_last"; "frame_changed"; "drawn"; "frame_data"; "terrain_to_draw"; "terrain_dimensions"; "terrain_unit_masked_density"; "terrain_unit_id"; "terrain_unit_density"; "terrain_unit_centering"; "number_of_terrain_units_used"; "phantom"]
  []
  []
  [("from_bytes", src_Terrain_from_bytes); ("to_bytes", src_Terrain_to_bytes)].

(** terrainblock.py:163-168 TileSize.from_bytes *)
Definition src_TileSize_from_bytes : func := mkFunc ClassMethod "terrainblock" ["cls"; "content"] [] [
  SReturn (ECall (EName "cls") [EKw "width" (ECall (EAttr (EName "content") "read_int_16") []); EKw "height" (ECall (EAttr (EName "content") "read_int_16") []); EKw "delta_y" (ECall (EAttr (EName "content") "read_int_16") [])])].
(** terrainblock.py:170-175 TileSize.to_bytes *)
Definition src_TileSize_to_bytes : func := mkFunc Method "terrainblock" ["self"; "version"] [] [
  SReturn (ECall (EAttr (EConst (KBytes [])) "join") [(EList [(ECall (EAttr (EName "self") "write_int_16") [(EAttr (EName "self") "width")]); (ECall (EAttr (EName "self") "write_int_16") [(EAttr (EName "self") "height")]); (ECall (EAttr (EName "self") "write_int_16") [(EAttr (EName "self") "delta_y")])])])].
(** terrainblock.py:157 class TileSize *)
Definition src_TileSize : class := mkClass Dataclass ["GenieClass"]
  ["width"; "height"; "delta_y"]
  []
  []
  [("from_bytes", src_TileSize_from_bytes); ("to_bytes", src_TileSize_to_bytes)].

(** terrainblock.py:216-252 TerrainBlock.from_bytes *)
Definition src_TerrainBlock_from_bytes : func := mkFunc ClassMethod "terrainblock" ["cls"; "content"] [] [
  SReturn (ECall (EName "cls") [EKw "virtual_function_ptr" (ECall (EAttr (EName "content") "read_int_32") [EKw "signed" (EConst (KBool false))]); EKw "map_pointer" (ECall (EAttr (EName "content") "read_int_32") [EKw "signed" (EConst (KBool false))]); EKw "map_width" (ECall (EAttr (EName "content") "read_int_32") []); EKw "map_height" (ECall (EAttr (EName "content") "read_int_32") []); EKw "world_width" (ECall (EAttr (EName "content") "read_int_32") []); EKw "world_height" (ECall (EAttr (EName "content") "read_int_32") []); EKw "tile_sizes" (ECall (EAttr (EName "content") "read_class_array") [(EName "TileSize"); (EName "TILE_TYPE_COUNT")]); EKw "padding_ts" (ECall (EAttr (EName "content") "read_int_16") []); EKw "terrains" (ECall (EAttr (EName "content") "read_class_array") [(EName "Terrain"); (EName "TERRAIN_COUNT")]); EKw "map_min_x" (ECall (EAttr (EName "content") "read_float") []); EKw "map_min_y" (ECall (EAttr (EName "content") "read_float") []); EKw "map_max_x" (ECall (EAttr (EName "content") "read_float") []); EKw "map_max_y" (ECall (EAttr (EName "content") "read_float") []); EKw "map_max_x_plus_1" (ECall (EAttr (EName "content") "read_float") []); EKw "map_max_y_plus_1" (ECall (EAttr (EName "content") "read_float") []); EKw "terrains_used_2" (ECall (EAttr (EName "content") "read_int_16") []); EKw "borders_used" (ECall (EAttr (EName "content") "read_int_16") []); EKw "max_terrain" (ECall (EAttr (EName "content") "read_int_16") []); EKw "tile_width" (ECall (EAttr (EName "content") "read_int_16") []); EKw "tile_height" (ECall (EAttr (EName "content") "read_int_16") []); EKw "tile_half_height" (ECall (EAttr (EName "content") "read_int_16") []); EKw "tile_half_width" (ECall (EAttr (EName "content") "read_int_16") []); EKw "elev_height" (ECall (EAttr (EName "content") "read_int_16") []); EKw "cur_row" (ECall (EAttr (EName "content") "read_int_16") []); EKw "cur_col" (ECall (EAttr (EName "content") "read_int_16") []); EKw "block_beg_row" (ECall (EAttr (EName "content") "read_int_16") []); EKw "block_end_row" (ECall (EAttr (EName "content") "read_int_16") []); EKw "block_beg_col" (ECall (EAttr (EName "content") "read_int_16") []); EKw "block_end_col" (ECall (EAttr (EName "content") "read_int_16") []); EKw "search_map_ptr" (ECall (EAttr (EName "content") "read_int_32") [EKw "signed" (EConst (KBool false))]); EKw "search_map_rows_ptr" (ECall (EAttr (EName "content") "read_int_32") [EKw "signed" (EConst (KBool false))]); EKw "any_frame_change" (ECall (EAttr (EName "content") "read_int_8") []); EKw "map_visible_flag" (ECall (EAttr (EName "content") "read_int_8") []); EKw "fog_flag" (ECall (EAttr (EName "content") "read_int_8") [])])].
(** terrainblock.py:254-290 TerrainBlock.to_bytes *)
Definition src_TerrainBlock_to_bytes : func := mkFunc Method "terrainblock" ["self"; "version"] [] [
  SReturn (ECall (EAttr (EConst (KBytes [])) "join") [(EList [(ECall (EAttr (EName "self") "write_int_32") [(EAttr (EName "self") "virtual_function_ptr"); EKw "signed" (EConst (KBool false))]); (ECall (EAttr (EName "self") "write_int_32") [(EAttr (EName "self") "map_pointer"); EKw "signed" (EConst (KBool false))]); (ECall (EAttr (EName "self") "write_int_32") [(EAttr (EName "self") "map_width")]); (ECall (EAttr (EName "self") "write_int_32") [(EAttr (EName "self") "map_height")]); (ECall (EAttr (EName "self") "write_int_32") [(EAttr (EName "self") "world_width")]); (ECall (EAttr (EName "self") "write_int_32") [(EAttr (EName "self") "world_height")]); (ECall (EAttr (EName "self") "write_class_array") [(EAttr (EName "self") "tile_sizes"); (EName "version")]); (ECall (EAttr (EName "self") "write_int_16") [(EAttr (EName "self") "padding_ts")]); (ECall (EAttr (EName "self") "write_class_array") [(EAttr (EName "self") "terrains"); (EName "version")]); (ECall (EAttr (EName "self") "write_float") [(EAttr (EName "self") "map_min_x")]); (ECall (EAttr (EName "self") "write_float") [(EAttr (EName "self") "map_min_y")]); (ECall (EAttr (EName "self") "write_float") [(EAttr (EName "self") "map_max_x")]); (ECall (EAttr (EName "self") "write_float") [(EAttr (EName "self") "map_max_y")]); (ECall (EAttr (EName "self") "write_float") [(EAttr (EName "self") "map_max_x_plus_1")]); (ECall (EAttr (EName "self") "write_float") [(EAttr (EName "self") "map_max_y_plus_1")]); (ECall (EAttr (EName "self") "write_int_16") [(EAttr (EName "self") "terrains_used_2")]); (ECall (EAttr (EName "self") "write_int_16") [(EAttr (EName "self") "borders_used")]); (ECall (EAttr (EName "self") "write_int_16") [(EAttr (EName "self") "max_terrain")]); (ECall (EAttr (EName "self") "write_int_16") [(EAttr (EName "self") "tile_width")]); (ECall (EAttr (EName "self") "write_int_16") [(EAttr (EName "self") "tile_height")]); (ECall (EAttr (EName "self") "write_int_16") [(EAttr (EName "self") "tile_half_height")]); (ECall (EAttr (EName "self") "write_int_16") [(EAttr (EName "self") "tile_half_width")]); (ECall (EAttr (EName "self") "write_int_16") [(EAttr (EName "self") "elev_height")]); (ECall (EAttr (EName "self") "write_int_16") [(EAttr (EName "self") "cur_row")]); (ECall (EAttr (EName "self") "write_int_16") [(EAttr (EName "self") "cur_col")]); (ECall (EAttr (EName "self") "write_int_16") [(EAttr (EName "self") "block_beg_row")]); (ECall (EAttr (EName "self") "write_int_16") [(EAttr (EName "self") "block_end_row")]); (ECall (EAttr (EName "self") "write_int_16") [(EAttr (EName "self") "block_beg_col")]); (ECall (EAttr (EName "self") "write_int_16") [(EAttr (EName "self") "block_end_col")]); (ECall (EAttr (EName "self") "write_int_32") [(EAttr (EName "self") "search_map_ptr"); EKw "signed" (EConst (KBool false))]); (ECall (EAttr (EName "self") "write_int_32") [(EAttr (EName "self") "search_map_rows_ptr"); EKw "signed" (EConst (KBool false))]); (ECall (EAttr (EName "self") "write_int_8") [(EAttr (EName "self") "any_frame_change")]); (ECall (EAttr (EName "self") "write_int_8") [(EAttr (EName "self") "map_visible_flag")]); (ECall (EAttr (EName "self") "write_int_8") [(EAttr (EName "self") "fog_flag")])])])].
(** terrainblock.py:179 class TerrainBlock *)
Definition src_TerrainBlock : class := mkClass Dataclass ["GenieClass"]
  ["virtual_function_ptr"; "map_pointer"; "map_width"; "map_height"; "world_width"; "world_height"; "tile_sizes"; "padding_ts"; "terrains"; "map_min_x"; "map_min_y"; "map_max_x"; "map_max_y"; "map_max_x_plus_1"; "map_max_y_plus_1"; "terrains_used_2"; "borders_used"; "max_terrain"; "tile_width"; "tile_height"; "tile_half_height"; "tile_half_width"; "elev_height"; "cur_row"; "cur_col"; "block_beg_row"; "block_end_row"; "block_beg_col"; "block_end_col"; "search_map_ptr"; "search_map_rows_ptr"; "any_frame_change"; "map_visible_flag"; "fog_flag"]
  []
  []
  [("from_bytes", src_TerrainBlock_from_bytes); ("to_bytes", src_TerrainBlock_to_bytes)].

(** randommaps.py:24-39 MapUnit.from_bytes *)
Definition src_MapUnit_from_bytes : func := mkFunc ClassMethod "randommaps" ["cls"; "content"] [] [
  SReturn (ECall (EName "cls") [EKw "unit" (ECall (EAttr (EName "content") "read_int_32") []); EKw "host_terrain" (ECall (EAttr (EName "content") "read_int_32") []); EKw "group_placing" (ECall (EAttr (EName "content") "read_int_8") []); EKw "scale_flag" (ECall (EAttr (EName "content") "read_int_8") []); EKw "padding_1" (ECall (EAttr (EName "content") "read_int_16") []); EKw "objects_per_group" (ECall (EAttr (EName "content") "read_int_32") []); EKw "fluctuation" (ECall (EAttr (EName "content") "read_int_32") []); EKw "groups_per_player" (ECall (EAttr (EName "content") "read_int_32") []); EKw "group_arena" (ECall (EAttr (EName "content") "read_int_32") []); EKw "player_id" (ECall (EAttr (EName "content") "read_int_32") []); EKw "set_place_for_all_players" (ECall (EAttr (EName "content") "read_int_32") []); EKw "min_distance_to_players" (ECall (EAttr (EName "content") "read_int_32") []); EKw "max_distance_to_players" (ECall (EAttr (EName "content") "read_int_32") [])])].
(** randommaps.py:41-56 MapUnit.to_bytes *)
Definition src_MapUnit_to_bytes : func := mkFunc Method "randommaps" ["self"; "version"] [] [
  SReturn (ECall (EAttr (EConst (KBytes [])) "join") [(EList [(ECall (EAttr (EName "self") "write_int_32") [(EAttr (EName "self") "unit")]); (ECall (EAttr (EName "self") "write_int_32") [(EAttr (EName "self") "host_terrain")]); (ECall (EAttr (EName "self") "write_int_8") [(EAttr (EName "self") "group_placing")]); (ECall (EAttr (EName "self") "write_int_8") [(EAttr (EName "self") "scale_flag")]); (ECall (EAttr (EName "self") "write_int_16") [(EAttr (EName "self") "padding_1")]); (ECall (EAttr (EName "self") "write_int_32") [(EAttr (EName "self") "objects_per_group")]); (ECall (EAttr (EName "self") "write_int_32") [(EAttr (EName "self") "fluctuation")]); (ECall (EAttr (EName "self") "write_int_32") [(EAttr (EName "self") "groups_per_player")]); (ECall (EAttr (EName "self") "write_int_32") [(EAttr (EName "self") "group_arena")]); (ECall (EAttr (EName "self") "write_int_32") [(EAttr (EName "self") "player_id")]); (ECall (EAttr (EName "self") "write_int_32") [(EAttr (EName "self") "set_place_for_all_players")]); (ECall (EAttr (EName "self") "write_int_32") [(EAttr (EName "self") "min_distance_to_players")]); (ECall (EAttr (EName "self") "write_int_32") [(EAttr (EName "self") "max_distance_to_players")])])])].
(** randommaps.py:8 class MapUnit *)
Definition src_MapUnit : class := mkClass Dataclass ["GenieClass"]
  ["unit"; "host_terrain"; "group_placing"; "scale_flag"; "padding_1"; "objects_per_group"; "fluctuation"; "groups_per_player"; "group_arena"; "player_id"; "set_place_for_all_players"; "min_distance_to_players"; "max_distance_to_players"]
  []
  []
  [("from_bytes", src_MapUnit_from_bytes); ("to_bytes", src_MapUnit_to_bytes)].

(** randommaps.py:69-77 MapTerrain.from_bytes *)
Definition src_MapTerrain_from_bytes : func := mkFunc ClassMethod "randommaps" ["cls"; "content"] [] [
  SReturn (ECall (EName "cls") [EKw "proportion" (ECall (EAttr (EName "content") "read_int_32") []); EKw "terrain" (ECall (EAttr (EName "content") "read_int_32") []); EKw "clump_count" (ECall (EAttr (EName "content") "read_int_32") []); EKw "edge_spacing" (ECall (EAttr (EName "content") "read_int_32") []); EKw "placement_terrain" (ECall (EAttr (EName "content") "read_int_32") []); EKw "clumpiness" (ECall (EAttr (EName "content") "read_int_32") [])])].
(** randommaps.py:79-87 MapTerrain.to_bytes *)
Definition src_MapTerrain_to_bytes : func := mkFunc Method "randommaps" ["self"; "version"] [] [
  SReturn (ECall (EAttr (EConst (KBytes [])) "join") [(EList [(ECall (EAttr (EName "self") "write_int_32") [(EAttr (EName "self") "proportion")]); (ECall (EAttr (EName "self") "write_int_32") [(EAttr (EName "self") "terrain")]); (ECall (EAttr (EName "self") "write_int_32") [(EAttr (EName "self") "clump_count")]); (ECall (EAttr (EName "self") "write_int_32") [(EAttr (EName "self") "edge_spacing")]); (ECall (EAttr (EName "self") "write_int_32") [(EAttr (EName "self") "placement_terrain")]); (ECall (EAttr (EName "self") "write_int_32") [(EAttr (EName "self") "clumpiness")])])])].
(** randommaps.py:60 class MapTerrain *)
Definition src_MapTerrain : class := mkClass Dataclass ["GenieClass"]
  ["proportion"; "terrain"; "clump_count"; "edge_spacing"; "placement_terrain"; "clumpiness"]
  []
  []
  [("from_bytes", src_MapTerrain_from_bytes); ("to_bytes", src_MapTerrain_to_bytes)].

(** randommaps.py:109-126 MapLand.from_bytes *)
Definition src_MapLand_from_bytes : func := mkFunc ClassMethod "randommaps" ["cls"; "content"] [] [
  SReturn (ECall (EName "cls") [EKw "land_id" (ECall (EAttr (EName "content") "read_int_32") []); EKw "terrain" (ECall (EAttr (EName "content") "read_int_32") [EKw "signed" (EConst (KBool false))]); EKw "land_spacing" (ECall (EAttr (EName "content") "read_int_32") []); EKw "base_size" (ECall (EAttr (EName "content") "read_int_32") []); EKw "zone" (ECall (EAttr (EName "content") "read_int_8") []); EKw "placement_type" (ECall (EAttr (EName "content") "read_int_8") []); EKw "padding_1" (ECall (EAttr (EName "content") "read_int_16") []); EKw "base_x" (ECall (EAttr (EName "content") "read_int_32") []); EKw "base_y" (ECall (EAttr (EName "content") "read_int_32") []); EKw "land_proportion" (ECall (EAttr (EName "content") "read_int_8") []); EKw "by_player_flag" (ECall (EAttr (EName "content") "read_int_8") []); EKw "padding_2" (ECall (EAttr (EName "content") "read_int_16") []); EKw "start_area_radius" (ECall (EAttr (EName "content") "read_int_32") []); EKw "terrain_edge_fade" (ECall (EAttr (EName "content") "read_int_32") []); EKw "clumpiness" (ECall (EAttr (EName "content") "read_int_32") [])])].
(** randommaps.py:128-145 MapLand.to_bytes *)
Definition src_MapLand_to_bytes : func := mkFunc Method "randommaps" ["self"; "version"] [] [
  SReturn (ECall (EAttr (EConst (KBytes [])) "join") [(EList [(ECall (EAttr (EName "self") "write_int_32") [(EAttr (EName "self") "land_id")]); (ECall (EAttr (EName "self") "write_int_32") [(EAttr (EName "self") "terrain"); EKw "signed" (EConst (KBool false))]); (ECall (EAttr (EName "self") "write_int_32") [(EAttr (EName "self") "land_spacing")]); (ECall (EAttr (EName "self") "write_int_32") [(EAttr (EName "self") "base_size")]); (ECall (EAttr (EName "self") "write_int_8") [(EAttr (EName "self") "zone")]); (ECall (EAttr (EName "self") "write_int_8") [(EAttr (EName "self") "placement_type")]); (ECall (EAttr (EName "self") "write_int_16") [(EAttr (EName "self") "padding_1")]); (ECall (EAttr (EName "self") "write_int_32") [(EAttr (EName "self") "base_x")]); (ECall (EAttr (EName "self") "write_int_32") [(EAttr (EName "self") "base_y")]); (ECall (EAttr (EName "self") "write_int_8") [(EAttr (EName "self") "land_proportion")]); (ECall (EAttr (EName "self") "write_int_8") [(EAttr (EName "self") "by_player_flag")]); (ECall (EAttr (EName "self") "write_int_16") [(EAttr (EName "self") "padding_2")]); (ECall (EAttr (EName "self") "write_int_32") [(EAttr (EName "self") "start_area_radius")]); (ECall (EAttr (EName "self") "write_int_32") [(EAttr (EName "self") "terrain_edge_fade")]); (ECall (EAttr (EName "self") "write_int_32") [(EAttr (EName "self") "clumpiness")])])])].
(** randommaps.py:91 class MapLand *)
Definition src_MapLand : class := mkClass Dataclass ["GenieClass"]
  ["land_id"; "terrain"; "land_spacing"; "base_size"; "zone"; "placement_type"; "padding_1"; "base_x"; "base_y"; "land_proportion"; "by_player_flag"; "padding_2"; "start_area_radius"; "terrain_edge_fade"; "clumpiness"]
  []
  []
  [("from_bytes", src_MapLand_from_bytes); ("to_bytes", src_MapLand_to_bytes)].

(** randommaps.py:158-166 MapElevation.from_bytes *)
Definition src_MapElevation_from_bytes : func := mkFunc ClassMethod "randommaps" ["cls"; "content"] [] [
  SReturn (ECall (EName "cls") [EKw "proportion" (ECall (EAttr (EName "content") "read_int_32") []); EKw "terrain" (ECall (EAttr (EName "content") "read_int_32") []); EKw "clump_count" (ECall (EAttr (EName "content") "read_int_32") []); EKw "base_terrain" (ECall (EAttr (EName "content") "read_int_32") []); EKw "base_elevation" (ECall (EAttr (EName "content") "read_int_32") []); EKw "tile_spacing" (ECall (EAttr (EName "content") "read_int_32") [])])].
(** randommaps.py:168-176 MapElevation.to_bytes *)
Definition src_MapElevation_to_bytes : func := mkFunc Method "randommaps" ["self"; "version"] [] [
  SReturn (ECall (EAttr (EConst (KBytes [])) "join") [(EList [(ECall (EAttr (EName "self") "write_int_32") [(EAttr (EName "self") "proportion")]); (ECall (EAttr (EName "self") "write_int_32") [(EAttr (EName "self") "terrain")]); (ECall (EAttr (EName "self") "write_int_32") [(EAttr (EName "self") "clump_count")]); (ECall (EAttr (EName "self") "write_int_32") [(EAttr (EName "self") "base_terrain")]); (ECall (EAttr (EName "self") "write_int_32") [(EAttr (EName "self") "base_elevation")]); (ECall (EAttr (EName "self") "write_int_32") [(EAttr (EName "self") "tile_spacing")])])])].
(** randommaps.py:149 class MapElevation *)
Definition src_MapElevation : class := mkClass Dataclass ["GenieClass"]
  ["proportion"; "terrain"; "clump_count"; "base_terrain"; "base_elevation"; "tile_spacing"]
  []
  []
  [("from_bytes", src_MapElevation_from_bytes); ("to_bytes", src_MapElevation_to_bytes)].

(** randommaps.py:205-251 MapInfo.from_bytes *)
Definition src_MapInfo_from_bytes : func := mkFunc ClassMethod "randommaps" ["cls"; "content"] [] [
  SAssign "map_id" (ECall (EAttr (EName "content") "read_int_32") []);
  SAssign "border_south_west" (ECall (EAttr (EName "content") "read_int_32") []);
  SAssign "border_north_west" (ECall (EAttr (EName "content") "read_int_32") []);
  SAssign "border_north_east" (ECall (EAttr (EName "content") "read_int_32") []);
  SAssign "border_south_east" (ECall (EAttr (EName "content") "read_int_32") []);
  SAssign "border_usage" (ECall (EAttr (EName "content") "read_int_32") []);
  SAssign "water_shape" (ECall (EAttr (EName "content") "read_int_32") []);
  SAssign "base_terrain" (ECall (EAttr (EName "content") "read_int_32") []);
  SAssign "land_coverage" (ECall (EAttr (EName "content") "read_int_32") []);
  SAssign "unused_id" (ECall (EAttr (EName "content") "read_int_32") []);
  SAssign "map_lands_size" (ECall (EAttr (EName "content") "read_int_32") [EKw "signed" (EConst (KBool false))]);
  SAssign "map_lands_ptr" (ECall (EAttr (EName "content") "read_int_32") []);
  SAssign "map_lands" (ECall (EAttr (EName "content") "read_class_array") [(EName "MapLand"); (EName "map_lands_size")]);
  SAssign "map_terrains_size" (ECall (EAttr (EName "content") "read_int_32") [EKw "signed" (EConst (KBool false))]);
  SAssign "map_terrains_ptr" (ECall (EAttr (EName "content") "read_int_32") []);
  SAssign "map_terrains" (ECall (EAttr (EName "content") "read_class_array") [(EName "MapTerrain"); (EName "map_terrains_size")]);
  SAssign "map_units_size" (ECall (EAttr (EName "content") "read_int_32") [EKw "signed" (EConst (KBool false))]);
  SAssign "map_units_ptr" (ECall (EAttr (EName "content") "read_int_32") []);
  SAssign "map_units" (ECall (EAttr (EName "content") "read_class_array") [(EName "MapUnit"); (EName "map_units_size")]);
  SAssign "map_elevations_size" (ECall (EAttr (EName "content") "read_int_32") [EKw "signed" (EConst (KBool false))]);
  SAssign "map_elevations_ptr" (ECall (EAttr (EName "content") "read_int_32") []);
  SAssign "map_elevations" (ECall (EAttr (EName "content") "read_class_array") [(EName "MapElevation"); (EName "map_elevations_size")]);
  SReturn (ECall (EName "cls") [EKw "map_id" (EName "map_id"); EKw "border_south_west" (EName "border_south_west"); EKw "border_north_west" (EName "border_north_west"); EKw "border_north_east" (EName "border_north_east"); EKw "border_south_east" (EName "border_south_east"); EKw "border_usage" (EName "border_usage"); EKw "water_shape" (EName "water_shape"); EKw "base_terrain" (EName "base_terrain"); EKw "land_coverage" (EName "land_coverage"); EKw "unused_id" (EName "unused_id"); EKw "map_lands_size" (EName "map_lands_size"); EKw "map_lands_ptr" (EName "map_lands_ptr"); EKw "map_lands" (EName "map_lands"); EKw "map_terrains_size" (EName "map_terrains_size"); EKw "map_terrains_ptr" (EName "map_terrains_ptr"); EKw "map_terrains" (EName "map_terrains"); EKw "map_units_size" (EName "map_units_size"); EKw "map_units_ptr" (EName "map_units_ptr"); EKw "map_units" (EName "map_units"); EKw "map_elevations_size" (EName "map_elevations_size"); EKw "map_elevations_ptr" (EName "map_elevations_ptr"); EKw "map_elevations" (EName "map_elevations")])].
(** randommaps.py:253-277 MapInfo.to_bytes *)
Definition src_MapInfo_to_bytes : func := mkFunc Method "randommaps" ["self"; "version"] [] [
  SReturn (ECall (EAttr (EConst (KBytes [])) "join") [(EList [(ECall (EAttr (EName "self") "write_int_32") [(EAttr (EName "self") "map_id")]); (ECall (EAttr (EName "self") "write_int_32") [(EAttr (EName "self") "border_south_west")]); (ECall (EAttr (EName "self") "write_int_32") [(EAttr (EName "self") "border_north_west")]); (ECall (EAttr (EName "self") "write_int_32") [(EAttr (EName "self") "border_north_east")]); (ECall (EAttr (EName "self") "write_int_32") [(EAttr (EName "self") "border_south_east")]); (ECall (EAttr (EName "self") "write_int_32") [(EAttr (EName "self") "border_usage")]); (ECall (EAttr (EName "self") "write_int_32") [(EAttr (EName "self") "water_shape")]); (ECall (EAttr (EName "self") "write_int_32") [(EAttr (EName "self") "base_terrain")]); (ECall (EAttr (EName "self") "write_int_32") [(EAttr (EName "self") "land_coverage")]); (ECall (EAttr (EName "self") "write_int_32") [(EAttr (EName "self") "unused_id")]); (ECall (EAttr (EName "self") "write_int_32") [(EAttr (EName "self") "map_lands_size"); EKw "signed" (EConst (KBool false))]); (ECall (EAttr (EName "self") "write_int_32") [(EAttr (EName "self") "map_lands_ptr")]); (ECall (EAttr (EName "self") "write_class_array") [(EAttr (EName "self") "map_lands"); (EName "version")]); (ECall (EAttr (EName "self") "write_int_32") [(EAttr (EName "self") "map_terrains_size"); EKw "signed" (EConst (KBool false))]); (ECall (EAttr (EName "self") "write_int_32") [(EAttr (EName "self") "map_terrains_ptr")]); (ECall (EAttr (EName "self") "write_class_array") [(EAttr (EName "self") "map_terrains"); (EName "version")]); (ECall (EAttr (EName "self") "write_int_32") [(EAttr (EName "self") "map_units_size"); EKw "signed" (EConst (KBool false))]); (ECall (EAttr (EName "self") "write_int_32") [(EAttr (EName "self") "map_units_ptr")]); (ECall (EAttr (EName "self") "write_class_array") [(EAttr (EName "self") "map_units"); (EName "version")]); (ECall (EAttr (EName "self") "write_int_32") [(EAttr (EName "self") "map_elevations_size"); EKw "signed" (EConst (KBool false))]); (ECall (EAttr (EName "self") "write_int_32") [(EAttr (EName "self") "map_elevations_ptr")]); (ECall (EAttr (EName "self") "write_class_array") [(EAttr (EName "self") "map_elevations"); (EName "version")])])])].
(** randommaps.py:180 class MapInfo *)
Definition src_MapInfo : class := mkClass Dataclass ["GenieClass"]
  ["map_id"; "border_south_west"; "border_north_west"; "border_north_east"; "border_south_east"; "border_usage"; "water_shape"; "base_terrain"; "land_coverage"; "unused_id"; "map_lands_size"; "map_lands_ptr"; "map_lands"; "map_terrains_size"; "map_terrains_ptr"; "map_terrains"; "map_units_size"; "map_units_ptr"; "map_units"; "map_elevations_size"; "map_elevations_ptr"; "map_elevations"]
  []
  []
  [("from_bytes", src_MapInfo_from_bytes); ("to_bytes", src_MapInfo_to_bytes)].

(** randommaps.py:287-296 RandomMaps.from_bytes *)
Definition src_RandomMaps_from_bytes : func := mkFunc ClassMethod "randommaps" ["cls"; "content"] [] [
  SAssign "random_map_count" (ECall (EAttr (EName "content") "read_int_32") [EKw "signed" (EConst (KBool false))]);
  SAssign "random_maps_ptr" (ECall (EAttr (EName "content") "read_int_32") []);
  SAssign "map_info_1" (ECall (EAttr (EName "content") "read_class_array") [(EName "MapInfo"); (EName "random_map_count")]);
  SAssign "map_info_2" (ECall (EAttr (EName "content") "read_class_array") [(EName "MapInfo"); (EName "random_map_count")]);
  SReturn (ECall (EName "cls") [EKw "random_maps_ptr" (EName "random_maps_ptr"); EKw "map_info_1" (EName "map_info_1"); EKw "map_info_2" (EName "map_info_2")])].
(** randommaps.py:298-305 RandomMaps.to_bytes *)
Definition src_RandomMaps_to_bytes : func := mkFunc Method "randommaps" ["self"; "version"] [] [
  SAssert (ECmp CEq (ECall (EName "len") [(EAttr (EName "self") "map_info_1")]) (ECall (EName "len") [(EAttr (EName "self") "map_info_2")]));
  SReturn (ECall (EAttr (EConst (KBytes [])) "join") [(EList [(ECall (EAttr (EName "self") "write_int_32") [(ECall (EName "len") [(EAttr (EName "self") "map_info_1")]); EKw "signed" (EConst (KBool false))]); (ECall (EAttr (EName "self") "write_int_32") [(EAttr (EName "self") "random_maps_ptr")]); (ECall (EAttr (EName "self") "write_class_array") [(EAttr (EName "self") "map_info_1"); (EName "version")]); (ECall (EAttr (EName "self") "write_class_array") [(EAttr (EName "self") "map_info_2"); (EName "version")])])])].
(** randommaps.py:281 class RandomMaps *)
Definition src_RandomMaps : class := mkClass Dataclass ["GenieClass"]
  ["random_maps_ptr"; "map_info_1"; "map_info_2"]
  []
  []
  [("from_bytes", src_RandomMaps_from_bytes); ("to_bytes", src_RandomMaps_to_bytes)].

(** task.py:50-53 Task.from_bytes *)
Definition src_Task_from_bytes : func := mkFunc ClassMethod "task" ["cls"; "content"] [] [
  SIf (ECmp CGe (EAttr (EName "content") "version") (EAttr (EName "Version") "VER_88")) [
    SReturn (ECall (EAttr (EName "cls") "from_bytes_88") [(EName "content")])] [];
  SReturn (ECall (EAttr (EName "cls") "from_bytes_84") [(EName "content")])].
(** task.py:56-125 Task.from_bytes_84 *)
Definition src_Task_from_bytes_84 : func := mkFunc ClassMethod "task" ["cls"; "content"] [] [
  SUnpack ["task_type"; "id_"; "is_default"; "action_type"; "class_id"; "unit_id"; "terrain_id"; "resource_in"; "resource_multiplier"; "resource_out"; "unused_resource"; "work_value_1"; "work_value_2"; "work_range"; "auto_search_targets"; "search_wait_time"; "enable_targeting"; "combat_level_flag"; "gather_type"; "work_flag_2"; "target_diplomacy"; "carry_check"; "pick_for_construction"; "moving_graphic_id"; "proceeding_graphic_id"; "working_graphic_id"; "carrying_graphic_id"; "resource_gathering_sound_id"; "resource_deposit_sound_id"; "wwise_resource_gathering_sound_id"; "wwise_resource_deposit_sound_id"] (ECall (EAttr (EName "struct") "unpack") [(EName "FORMAT"); (ECall (EAttr (EName "content") "consume_range") [(EName "FORMAT_LENGTH")])]);
  SReturn (ECall (EName "cls") [EKw "task_type" (EName "task_type"); EKw "id" (EName "id_"); EKw "is_default" (EName "is_default"); EKw "action_type" (EName "action_type"); EKw "class_id" (EName "class_id"); EKw "unit_id" (EName "unit_id"); EKw "terrain_id" (EName "terrain_id"); EKw "resource_in" (EName "resource_in"); EKw "resource_multiplier" (EName "resource_multiplier"); EKw "resource_out" (EName "resource_out"); EKw "unused_resource" (EName "unused_resource"); EKw "work_value_1" (EName "work_value_1"); EKw "work_value_2" (EName "work_value_2"); EKw "work_range" (EName "work_range"); EKw "auto_search_targets" (EName "auto_search_targets"); EKw "search_wait_time" (EName "search_wait_time"); EKw "enable_targeting" (EName "enable_targeting"); EKw "combat_level_flag" (EName "combat_level_flag"); EKw "gather_type" (EName "gather_type"); EKw "work_flag_2" (EName "work_flag_2"); EKw "target_diplomacy" (EName "target_diplomacy"); EKw "carry_check" (EName "carry_check"); EKw "pick_for_construction" (EName "pick_for_construction"); EKw "moving_graphic_id" (EName "moving_graphic_id"); EKw "proceeding_graphic_id" (EName "proceeding_graphic_id"); EKw "working_graphic_id" (EName "working_graphic_id"); EKw "carrying_graphic_id" (EName "carrying_graphic_id"); EKw "resource_gathering_sound_id" (EName "resource_gathering_sound_id"); EKw "resource_deposit_sound_id" (EName "resource_deposit_sound_id"); EKw "wwise_resource_gathering_sound_id" (EName "wwise_resource_gathering_sound_id"); EKw "wwise_resource_deposit_sound_id" (EName "wwise_resource_deposit_sound_id"); EKw "enabled" (ENeg (EConst (KInt 1)))])].
(** task.py:128-198 Task.from_bytes_88 *)
Definition src_Task_from_bytes_88 : func := mkFunc ClassMethod "task" ["cls"; "content"] [] [
  SUnpack ["task_type"; "id_"; "is_default"; "action_type"; "class_id"; "unit_id"; "terrain_id"; "resource_in"; "resource_multiplier"; "resource_out"; "unused_resource"; "work_value_1"; "work_value_2"; "work_range"; "auto_search_targets"; "search_wait_time"; "enable_targeting"; "combat_level_flag"; "gather_type"; "work_flag_2"; "target_diplomacy"; "carry_check"; "pick_for_construction"; "moving_graphic_id"; "proceeding_graphic_id"; "working_graphic_id"; "carrying_graphic_id"; "resource_gathering_sound_id"; "resource_deposit_sound_id"; "wwise_resource_gathering_sound_id"; "wwise_resource_deposit_sound_id"; "enabled"] (ECall (EAttr (EName "struct") "unpack") [(EName "FORMAT_88"); (ECall (EAttr (EName "content") "consume_range") [(EName "FORMAT_LENGTH_88")])]);
  SReturn (ECall (EName "cls") [EKw "task_type" (EName "task_type"); EKw "id" (EName "id_"); EKw "is_default" (EName "is_default"); EKw "action_type" (EName "action_type"); EKw "class_id" (EName "class_id"); EKw "unit_id" (EName "unit_id"); EKw "terrain_id" (EName "terrain_id"); EKw "resource_in" (EName "resource_in"); EKw "resource_multiplier" (EName "resource_multiplier"); EKw "resource_out" (EName "resource_out"); EKw "unused_resource" (EName "unused_resource"); EKw "work_value_1" (EName "work_value_1"); EKw "work_value_2" (EName "work_value_2"); EKw "work_range" (EName "work_range"); EKw "auto_search_targets" (EName "auto_search_targets"); EKw "search_wait_time" (EName "search_wait_time"); EKw "enable_targeting" (EName "enable_targeting"); EKw "combat_level_flag" (EName "combat_level_flag"); EKw "gather_type" (EName "gather_type"); EKw "work_flag_2" (EName "work_flag_2"); EKw "target_diplomacy" (EName "target_diplomacy"); EKw "carry_check" (EName "carry_check"); EKw "pick_for_construction" (EName "pick_for_construction"); EKw "moving_graphic_id" (EName "moving_graphic_id"); EKw "proceeding_graphic_id" (EName "proceeding_graphic_id"); EKw "working_graphic_id" (EName "working_graphic_id"); EKw "carrying_graphic_id" (EName "carrying_graphic_id"); EKw "resource_gathering_sound_id" (EName "resource_gathering_sound_id"); EKw "resource_deposit_sound_id" (EName "resource_deposit_sound_id"); EKw "wwise_resource_gathering_sound_id" (EName "wwise_resource_gathering_sound_id"); EKw "wwise_resource_deposit_sound_id" (EName "wwise_resource_deposit_sound_id"); EKw "enabled" (EName "enabled")])].
(** task.py:200-203 Task.to_bytes *)
Definition src_Task_to_bytes : func := mkFunc Method "task" ["self"; "version"] [] [
  SIf (ECmp CGe (EName "version") (EAttr (EName "Version") "VER_88")) [
    SReturn (ECall (EAttr (EName "self") "to_bytes_88") [(EName "version")])] [];
  SReturn (ECall (EAttr (EName "self") "to_bytes_84") [(EName "version")])].
(** task.py:206-239 Task.to_bytes_84 *)
Definition src_Task_to_bytes_84 : func := mkFunc Method "task" ["self"; "version"] [] [
  SReturn (ECall (EAttr (EName "struct") "pack") [(EName "FORMAT"); (EAttr (EName "self") "task_type"); (EAttr (EName "self") "id"); (EAttr (EName "self") "is_default"); (EAttr (EName "self") "action_type"); (EAttr (EName "self") "class_id"); (EAttr (EName "self") "unit_id"); (EAttr (EName "self") "terrain_id"); (EAttr (EName "self") "resource_in"); (EAttr (EName "self") "resource_multiplier"); (EAttr (EName "self") "resource_out"); (EAttr (EName "self") "unused_resource"); (EAttr (EName "self") "work_value_1"); (EAttr (EName "self") "work_value_2"); (EAttr (EName "self") "work_range"); (EAttr (EName "self") "auto_search_targets"); (EAttr (EName "self") "search_wait_time"); (EAttr (EName "self") "enable_targeting"); (EAttr (EName "self") "combat_level_flag"); (EAttr (EName "self") "gather_type"); (EAttr (EName "self") "work_flag_2"); (EAttr (EName "self") "target_diplomacy"); (EAttr (EName "self") "carry_check"); (EAttr (EName "self") "pick_for_construction"); (EAttr (EName "self") "moving_graphic_id"); (EAttr (EName "self") "proceeding_graphic_id"); (EAttr (EName "self") "working_graphic_id"); (EAttr (EName "self") "carrying_graphic_id"); (EAttr (EName "self") "resource_gathering_sound_id"); (EAttr (EName "self") "resource_deposit_sound_id"); (EAttr (EName "self") "wwise_resource_gathering_sound_id"); (EAttr (EName "self") "wwise_resource_deposit_sound_id")])].
(** task.py:242-276 Task.to_bytes_88 *)
Definition src_Task_to_bytes_88 : func := mkFunc Method "task" ["self"; "version"] [] [
  SReturn (ECall (EAttr (EName "struct") "pack") [(EName "FORMAT_88"); (EAttr (EName "self") "task_type"); (EAttr (EName "self") "id"); (EAttr (EName "self") "is_default"); (EAttr (EName "self") "action_type"); (EAttr (EName "self") "class_id"); (EAttr (EName "self") "unit_id"); (EAttr (EName "self") "terrain_id"); (EAttr (EName "self") "resource_in"); (EAttr (EName "self") "resource_multiplier"); (EAttr (EName "self") "resource_out"); (EAttr (EName "self") "unused_resource"); (EAttr (EName "self") "work_value_1"); (EAttr (EName "self") "work_value_2"); (EAttr (EName "self") "work_range"); (EAttr (EName "self") "auto_search_targets"); (EAttr (EName "self") "search_wait_time"); (EAttr (EName "self") "enable_targeting"); (EAttr (EName "self") "combat_level_flag"); (EAttr (EName "self") "gather_type"); (EAttr (EName "self") "work_flag_2"); (EAttr (EName "self") "target_diplomacy"); (EAttr (EName "self") "carry_check"); (EAttr (EName "self") "pick_for_construction"); (EAttr (EName "self") "moving_graphic_id"); (EAttr (EName "self") "proceeding_graphic_id"); (EAttr (EName "self") "working_graphic_id"); (EAttr (EName "self") "carrying_graphic_id"); (EAttr (EName "self") "resource_gathering_sound_id"); (EAttr (EName "self") "resource_deposit_sound_id"); (EAttr (EName "self") "wwise_resource_gathering_sound_id"); (EAttr (EName "self") "wwise_resource_deposit_sound_id"); (EAttr (EName "self") "enabled")])].
(** task.py:15 class Task *)
Definition src_Task : class := mkClass Dataclass ["GenieClass"]
  ["task_type"; "id"; "is_default"; "action_type"; "class_id"; "unit_id"; "terrain_id"; "resource_in"; "resource_multiplier"; "resource_out"; "unused_resource"; "work_value_1"; "work_value_2"; "work_range"; "auto_search_targets"; "search_wait_time"; "enable_targeting"; "combat_level_flag"; "gather_type"; "work_flag_2"; "target_diplomacy"; "carry_check"; "pick_for_construction"; "moving_graphic_id"; "proceeding_graphic_id"; "working_graphic_id"; "carrying_graphic_id"; "resource_gathering_sound_id"; "resource_deposit_sound_id"; "wwise_resource_gathering_sound_id"; "wwise_resource_deposit_sound_id"; "enabled"]
  []
  []
  [("from_bytes", src_Task_from_bytes); ("from_bytes_84", src_Task_from_bytes_84); ("from_bytes_88", src_Task_from_bytes_88); ("to_bytes", src_Task_to_bytes); ("to_bytes_84", src_Task_to_bytes_84); ("to_bytes_88", src_Task_to_bytes_88)].

(** unitheaders.py:14-23 UnitHeaders.from_bytes *)
Definition src_UnitHeaders_from_bytes : func := mkFunc ClassMethod "unitheaders" ["cls"; "content"] [] [
  SAssign "exists" (ECall (EAttr (EName "content") "read_int_8") []);
  SAssign "task_list" (EConst KNone);
  SIf (EName "exists") [
    SAssign "task_count" (ECall (EAttr (EName "content") "read_int_16") []);
    SAssign "task_list" (ECall (EAttr (EName "content") "read_class_array") [(EName "Task"); (EName "task_count")])] [];
  SReturn (ECall (EName "cls") [EKw "exists" (EName "exists"); EKw "task_list" (EName "task_list")])].
(** unitheaders.py:25-30 UnitHeaders.to_bytes *)
Definition src_UnitHeaders_to_bytes : func := mkFunc Method "unitheaders" ["self"; "version"] [] [
  SReturn (ECall (EAttr (EConst (KBytes [])) "join") [(EList [(ECall (EAttr (EName "self") "write_int_8") [(EAttr (EName "self") "exists")]); (EIf (EAnd (EAttr (EName "self") "exists") (ECmp CIsNot (EAttr (EName "self") "task_list") (EConst KNone))) (ECall (EAttr (EName "self") "write_int_16") [(ECall (EName "len") [(EAttr (EName "self") "task_list")])]) (EConst (KBytes []))); (EIf (EAnd (EAttr (EName "self") "exists") (ECmp CIsNot (EAttr (EName "self") "task_list") (EConst KNone))) (ECall (EAttr (EName "self") "write_class_array") [(EAttr (EName "self") "task_list"); (EName "version")]) (EConst (KBytes [])))])])].
(** unitheaders.py:9 class UnitHeaders *)
Definition src_UnitHeaders : class := mkClass Dataclass ["GenieClass"]
  ["exists"; "task_list"]
  [("task_list", KNone)]
  []
  [("from_bytes", src_UnitHeaders_from_bytes); ("to_bytes", src_UnitHeaders_to_bytes)].

(** unit.py:19-26 ResourceStorage.from_bytes *)
Definition src_ResourceStorage_from_bytes : func := mkFunc ClassMethod "unit" ["cls"; "content"] [] [
  SUnpack ["type_"; "amount"; "flag"] (ECall (EAttr (EName "struct") "unpack") [(EName "RESOURCE_STORAGE_FORMAT"); (ECall (EAttr (EName "content") "consume_range") [(EName "RESOURCE_STORAGE_FORMAT_LENGTH")])]);
  SReturn (ECall (EName "cls") [EKw "type" (EName "type_"); EKw "amount" (EName "amount"); EKw "flag" (EName "flag")])].
(** unit.py:28-29 ResourceStorage.to_bytes *)
Definition src_ResourceStorage_to_bytes : func := mkFunc Method "unit" ["self"; "version"] [] [
  SReturn (ECall (EAttr (EName "struct") "pack") [(EName "RESOURCE_STORAGE_FORMAT"); (EAttr (EName "self") "type"); (EAttr (EName "self") "amount"); (EAttr (EName "self") "flag")])].
(** unit.py:13 class ResourceStorage *)
Definition src_ResourceStorage : class := mkClass Dataclass ["GenieClass"]
  ["type"; "amount"; "flag"]
  []
  []
  [("from_bytes", src_ResourceStorage_from_bytes); ("to_bytes", src_ResourceStorage_to_bytes)].

(** unit.py:43-51 DamageGraphic.from_bytes *)
Definition src_DamageGraphic_from_bytes : func := mkFunc ClassMethod "unit" ["cls"; "content"] [] [
  SUnpack ["graphic_id"; "damage_percent"; "apply_mode"] (ECall (EAttr (EName "struct") "unpack") [(EName "DAMAGE_GRAPHIC_FORMAT"); (ECall (EAttr (EName "content") "consume_range") [(EName "DAMAGE_GRAPHIC_FORMAT_LENGTH")])]);
  SReturn (ECall (EName "cls") [EKw "graphic_id" (EName "graphic_id"); EKw "damage_percent" (EName "damage_percent"); EKw "apply_mode" (EName "apply_mode")])].
(** unit.py:53-54 DamageGraphic.to_bytes *)
Definition src_DamageGraphic_to_bytes : func := mkFunc Method "unit" ["self"; "version"] [] [
  SReturn (ECall (EAttr (EName "struct") "pack") [(EName "DAMAGE_GRAPHIC_FORMAT"); (EAttr (EName "self") "graphic_id"); (EAttr (EName "self") "damage_percent"); (EAttr (EName "self") "apply_mode")])].
(** unit.py:37 class DamageGraphic *)
Definition src_DamageGraphic : class := mkClass Dataclass ["GenieClass"]
  ["graphic_id"; "damage_percent"; "apply_mode"]
  []
  []
  [("from_bytes", src_DamageGraphic_from_bytes); ("to_bytes", src_DamageGraphic_to_bytes)].

(** unit.py:79-110 DeadFish.from_bytes *)
Definition src_DeadFish_from_bytes : func := mkFunc ClassMethod "unit" ["cls"; "content"] [] [
  SUnpack ["walking_graphic"; "running_graphic"; "rotation_speed"; "old_size_class"; "tracking_unit"; "tracking_unit_mode"; "tracking_unit_density"; "old_move_algorithm"; "turn_radius"; "turn_radius_speed"; "max_yaw_per_second_moving"; "stationary_yaw_revolution_time"; "max_yaw_per_second_stationary"; "min_collision_size_multiplier"] (ECall (EAttr (EName "struct") "unpack") [(EName "DEAD_FISH_FORMAT"); (ECall (EAttr (EName "content") "consume_range") [(EName "DEAD_FISH_FORMAT_LENGTH")])]);
  SReturn (ECall (EName "cls") [EKw "walking_graphic" (EName "walking_graphic"); EKw "running_graphic" (EName "running_graphic"); EKw "rotation_speed" (EName "rotation_speed"); EKw "old_size_class" (EName "old_size_class"); EKw "tracking_unit" (EName "tracking_unit"); EKw "tracking_unit_mode" (EName "tracking_unit_mode"); EKw "tracking_unit_density" (EName "tracking_unit_density"); EKw "old_move_algorithm" (EName "old_move_algorithm"); EKw "turn_radius" (EName "turn_radius"); EKw "turn_radius_speed" (EName "turn_radius_speed"); EKw "max_yaw_per_second_moving" (EName "max_yaw_per_second_moving"); EKw "stationary_yaw_revolution_time" (EName "stationary_yaw_revolution_time"); EKw "max_yaw_per_second_stationary" (EName "max_yaw_per_second_stationary"); EKw "min_collision_size_multiplier" (EName "min_collision_size_multiplier")])].
(** unit.py:112-128 DeadFish.to_bytes *)
Definition src_DeadFish_to_bytes : func := mkFunc Method "unit" ["self"; "version"] [] [
  SReturn (ECall (EAttr (EName "struct") "pack") [(EName "DEAD_FISH_FORMAT"); (EAttr (EName "self") "walking_graphic"); (EAttr (EName "self") "running_graphic"); (EAttr (EName "self") "rotation_speed"); (EAttr (EName "self") "old_size_class"); (EAttr (EName "self") "tracking_unit"); (EAttr (EName "self") "tracking_unit_mode"); (EAttr (EName "self") "tracking_unit_density"); (EAttr (EName "self") "old_move_algorithm"); (EAttr (EName "self") "turn_radius"); (EAttr (EName "self") "turn_radius_speed"); (EAttr (EName "self") "max_yaw_per_second_moving"); (EAttr (EName "self") "stationary_yaw_revolution_time"); (EAttr (EName "self") "max_yaw_per_second_stationary"); (EAttr (EName "self") "min_collision_size_multiplier")])].
(** unit.py:62 class DeadFish *)
Definition src_DeadFish : class := mkClass Dataclass ["GenieClass"]
  ["walking_graphic"; "running_graphic"; "rotation_speed"; "old_size_class"; "tracking_unit"; "tracking_unit_mode"; "tracking_unit_density"; "old_move_algorithm"; "turn_radius"; "turn_radius_speed"; "max_yaw_per_second_moving"; "stationary_yaw_revolution_time"; "max_yaw_per_second_stationary"; "min_collision_size_multiplier"]
  []
  []
  [("from_bytes", src_DeadFish_from_bytes); ("to_bytes", src_DeadFish_to_bytes)].

(** unit.py:146-174 Bird.from_bytes *)
Definition src_Bird_from_bytes : func := mkFunc ClassMethod "unit" ["cls"; "content"] [] [
  SAssign "default_task_id" (ECall (EAttr (EName "content") "read_int_16") []);
  SAssign "search_radius" (ECall (EAttr (EName "content") "read_float") []);
  SAssign "work_rate" (ECall (EAttr (EName "content") "read_float") []);
  SAssign "drop_sites_size" (EConst (KInt 3));
  SIf (ECmp CGt (EAttr (EName "content") "version") (EAttr (EName "Version") "VER_77")) [
    SAssign "drop_sites_size" (ECall (EAttr (EName "content") "read_int_16") [])] [];
  SAssign "drop_sites" (ECall (EAttr (EName "content") "read_int_16_array") [(EName "drop_sites_size")]);
  SAssign "task_swap_group" (ECall (EAttr (EName "content") "read_int_8") []);
  SAssign "attack_sound" (ECall (EAttr (EName "content") "read_int_16") []);
  SAssign "move_sound" (ECall (EAttr (EName "content") "read_int_16") []);
  SAssign "wwise_attack_sound_id" (ECall (EAttr (EName "content") "read_int_32") []);
  SAssign "wwise_move_sound_id" (ECall (EAttr (EName "content") "read_int_32") []);
  SAssign "run_pattern" (ECall (EAttr (EName "content") "read_int_8") []);
  SAssign "task_size" (ECall (EAttr (EName "content") "read_int_16") []);
  SAssign "tasks" (ECall (EAttr (EName "content") "read_class_array") [(EName "Task"); (EName "task_size")]);
  SReturn (ECall (EName "cls") [EKw "default_task_id" (EName "default_task_id"); EKw "search_radius" (EName "search_radius"); EKw "work_rate" (EName "work_rate"); EKw "drop_sites" (EName "drop_sites"); EKw "task_swap_group" (EName "task_swap_group"); EKw "attack_sound" (EName "attack_sound"); EKw "move_sound" (EName "move_sound"); EKw "wwise_attack_sound_id" (EName "wwise_attack_sound_id"); EKw "wwise_move_sound_id" (EName "wwise_move_sound_id"); EKw "run_pattern" (EName "run_pattern"); EKw "tasks" (EName "tasks")])].
(** unit.py:176-191 Bird.to_bytes *)
Definition src_Bird_to_bytes : func := mkFunc Method "unit" ["self"; "version"] [] [
  SReturn (ECall (EAttr (EConst (KBytes [])) "join") [(EList [(ECall (EAttr (EName "self") "write_int_16") [(EAttr (EName "self") "default_task_id")]); (ECall (EAttr (EName "self") "write_float") [(EAttr (EName "self") "search_radius")]); (ECall (EAttr (EName "self") "write_float") [(EAttr (EName "self") "work_rate")]); (ECall (EAttr (EName "self") "write_int_16") [(ECall (EName "len") [(EAttr (EName "self") "drop_sites")]); EKw "if_" (ECmp CGe (EName "version") (EAttr (EName "Version") "VER_78"))]); (ECall (EAttr (EName "self") "write_int_16_array") [(EAttr (EName "self") "drop_sites")]); (ECall (EAttr (EName "self") "write_int_8") [(EAttr (EName "self") "task_swap_group")]); (ECall (EAttr (EName "self") "write_int_16") [(EAttr (EName "self") "attack_sound")]); (ECall (EAttr (EName "self") "write_int_16") [(EAttr (EName "self") "move_sound")]); (ECall (EAttr (EName "self") "write_int_32") [(EAttr (EName "self") "wwise_attack_sound_id")]); (ECall (EAttr (EName "self") "write_int_32") [(EAttr (EName "self") "wwise_move_sound_id")]); (ECall (EAttr (EName "self") "write_int_8") [(EAttr (EName "self") "run_pattern")]); (ECall (EAttr (EName "self") "write_int_16") [(ECall (EName "len") [(EAttr (EName "self") "tasks")])]); (ECall (EAttr (EName "self") "write_class_array") [(EAttr (EName "self") "tasks"); (EName "version")])])])].
(** unit.py:132 class Bird *)
Definition src_Bird : class := mkClass Dataclass ["GenieClass"]
  ["default_task_id"; "search_radius"; "work_rate"; "drop_sites"; "task_swap_group"; "attack_sound"; "move_sound"; "wwise_attack_sound_id"; "wwise_move_sound_id"; "run_pattern"; "tasks"]
  []
  []
  [("from_bytes", src_Bird_from_bytes); ("to_bytes", src_Bird_to_bytes)].

(** unit.py:204-209 AttackOrArmor.from_bytes *)
Definition src_AttackOrArmor_from_bytes : func := mkFunc ClassMethod "unit" ["cls"; "content"] [] [
  SUnpack ["class_"; "amount"] (ECall (EAttr (EName "struct") "unpack") [(EName "ATTACK_OR_ARMOR_FORMAT"); (ECall (EAttr (EName "content") "consume_range") [(EName "ATTACK_OR_ARMOR_FORMAT_LENGTH")])]);
  SReturn (ECall (EName "cls") [EKw "class_" (EName "class_"); EKw "amount" (EName "amount")])].
(** unit.py:211-212 AttackOrArmor.to_bytes *)
Definition src_AttackOrArmor_to_bytes : func := mkFunc Method "unit" ["self"; "version"] [] [
  SReturn (ECall (EAttr (EName "struct") "pack") [(EName "ATTACK_OR_ARMOR_FORMAT"); (EAttr (EName "self") "class_"); (EAttr (EName "self") "amount")])].
(** unit.py:199 class AttackOrArmor *)
Definition src_AttackOrArmor : class := mkClass Dataclass ["GenieClass"]
  ["class_"; "amount"]
  []
  []
  [("from_bytes", src_AttackOrArmor_from_bytes); ("to_bytes", src_AttackOrArmor_to_bytes)].

(** unit.py:246-310 Type50.from_bytes *)
Definition src_Type50_from_bytes : func := mkFunc ClassMethod "unit" ["cls"; "content"] [] [
  SAssign "base_armor" (ECall (EAttr (EName "content") "read_int_16") []);
  SAssign "attack_count" (ECall (EAttr (EName "content") "read_int_16") []);
  SAssign "attacks" (ECall (EAttr (EName "content") "read_class_array") [(EName "AttackOrArmor"); (EName "attack_count")]);
  SAssign "armour_count" (ECall (EAttr (EName "content") "read_int_16") []);
  SAssign "armours" (ECall (EAttr (EName "content") "read_class_array") [(EName "AttackOrArmor"); (EName "armour_count")]);
  SAssign "defense_terrain_bonus" (ECall (EAttr (EName "content") "read_int_16") []);
  SAssign "bonus_damage_resistance" (ECall (EAttr (EName "content") "read_float") []);
  SAssign "max_range" (ECall (EAttr (EName "content") "read_float") []);
  SAssign "blast_width" (ECall (EAttr (EName "content") "read_float") []);
  SAssign "reload_time" (ECall (EAttr (EName "content") "read_float") []);
  SAssign "projectile_unit_id" (ECall (EAttr (EName "content") "read_int_16") []);
  SAssign "accuracy_percent" (ECall (EAttr (EName "content") "read_int_16") []);
  SAssign "break_off_combat" (ECall (EAttr (EName "content") "read_int_8") []);
  SAssign "frame_delay" (ECall (EAttr (EName "content") "read_int_16") []);
  SAssign "graphic_displacement" (ECall (EAttr (EName "content") "read_float_array_3") []);
  SAssign "blast_attack_level" (ECall (EAttr (EName "content") "read_int_8") []);
  SAssign "min_range" (ECall (EAttr (EName "content") "read_float") []);
  SAssign "accuracy_dispersion" (ECall (EAttr (EName "content") "read_float") []);
  SAssign "attack_graphic" (ECall (EAttr (EName "content") "read_int_16") []);
  SAssign "displayed_melee_armour" (ECall (EAttr (EName "content") "read_int_16") []);
  SAssign "displayed_attack" (ECall (EAttr (EName "content") "read_int_16") []);
  SAssign "displayed_range" (ECall (EAttr (EName "content") "read_float") []);
  SAssign "displayed_reload_time" (ECall (EAttr (EName "content") "read_float") []);
  SAssign "blast_damage" (ECall (EAttr (EName "content") "read_float") []);
  SAssign "damage_reflection" (EConst (KFloat f64_zero));
  SAssign "friendly_fire_damage" (EConst (KFloat f64_one));
  SAssign "interrupt_frame" (ENeg (EConst (KInt 1)));
  SAssign "garrison_firepower" (EConst (KFloat f64_zero));
  SAssign "attack_graphic_2" (ENeg (EConst (KInt 1)));
  SIf (ECmp CGe (EAttr (EName "content") "version") (EAttr (EName "Version") "VER_84")) [
    SAssign "damage_reflection" (ECall (EAttr (EName "content") "read_float") []);
    SAssign "friendly_fire_damage" (ECall (EAttr (EName "content") "read_float") []);
    SAssign "interrupt_frame" (ECall (EAttr (EName "content") "read_int_16") []);
    SAssign "garrison_firepower" (ECall (EAttr (EName "content") "read_float") []);
    SAssign "attack_graphic_2" (ECall (EAttr (EName "content") "read_int_16") [])] [];
  SReturn (ECall (EName "cls") [EKw "base_armor" (EName "base_armor"); EKw "attacks" (EName "attacks"); EKw "armours" (EName "armours"); EKw "defense_terrain_bonus" (EName "defense_terrain_bonus"); EKw "bonus_damage_resistance" (EName "bonus_damage_resistance"); EKw "max_range" (EName "max_range"); EKw "blast_width" (EName "blast_width"); EKw "reload_time" (EName "reload_time"); EKw "projectile_unit_id" (EName "projectile_unit_id"); EKw "accuracy_percent" (EName "accuracy_percent"); EKw "break_off_combat" (EName "break_off_combat"); EKw "frame_delay" (EName "frame_delay"); EKw "graphic_displacement" (EName "graphic_displacement"); EKw "blast_attack_level" (EName "blast_attack_level"); EKw "min_range" (EName "min_range"); EKw "accuracy_dispersion" (EName "accuracy_dispersion"); EKw "attack_graphic" (EName "attack_graphic"); EKw "displayed_melee_armour" (EName "displayed_melee_armour"); EKw "displayed_attack" (EName "displayed_attack"); EKw "displayed_range" (EName "displayed_range"); EKw "displayed_reload_time" (EName "displayed_reload_time"); EKw "blast_damage" (EName "blast_damage"); EKw "damage_reflection" (EName "damage_reflection"); EKw "friendly_fire_damage" (EName "friendly_fire_damage"); EKw "interrupt_frame" (EName "interrupt_frame"); EKw "garrison_firepower" (EName "garrison_firepower"); EKw "attack_graphic_2" (EName "attack_graphic_2")])].
(** unit.py:312-347 Type50.to_bytes *)
Definition src_Type50_to_bytes : func := mkFunc Method "unit" ["self"; "version"] [] [
  SAssign "value" (ECall (EAttr (EConst (KBytes [])) "join") [(EList [(ECall (EAttr (EName "self") "write_int_16") [(EAttr (EName "self") "base_armor")]); (ECall (EAttr (EName "self") "write_int_16") [(ECall (EName "len") [(EAttr (EName "self") "attacks")])]); (ECall (EAttr (EName "self") "write_class_array") [(EAttr (EName "self") "attacks"); (EName "version")]); (ECall (EAttr (EName "self") "write_int_16") [(ECall (EName "len") [(EAttr (EName "self") "armours")])]); (ECall (EAttr (EName "self") "write_class_array") [(EAttr (EName "self") "armours"); (EName "version")]); (ECall (EAttr (EName "self") "write_int_16") [(EAttr (EName "self") "defense_terrain_bonus")]); (ECall (EAttr (EName "self") "write_float") [(EAttr (EName "self") "bonus_damage_resistance")]); (ECall (EAttr (EName "self") "write_float") [(EAttr (EName "self") "max_range")]); (ECall (EAttr (EName "self") "write_float") [(EAttr (EName "self") "blast_width")]); (ECall (EAttr (EName "self") "write_float") [(EAttr (EName "self") "reload_time")]); (ECall (EAttr (EName "self") "write_int_16") [(EAttr (EName "self") "projectile_unit_id")]); (ECall (EAttr (EName "self") "write_int_16") [(EAttr (EName "self") "accuracy_percent")]); (ECall (EAttr (EName "self") "write_int_8") [(EAttr (EName "self") "break_off_combat")]); (ECall (EAttr (EName "self") "write_int_16") [(EAttr (EName "self") "frame_delay")]); (ECall (EAttr (EName "self") "write_float_array") [(EAttr (EName "self") "graphic_displacement")]); (ECall (EAttr (EName "self") "write_int_8") [(EAttr (EName "self") "blast_attack_level")]); (ECall (EAttr (EName "self") "write_float") [(EAttr (EName "self") "min_range")]); (ECall (EAttr (EName "self") "write_float") [(EAttr (EName "self") "accuracy_dispersion")]); (ECall (EAttr (EName "self") "write_int_16") [(EAttr (EName "self") "attack_graphic")]); (ECall (EAttr (EName "self") "write_int_16") [(EAttr (EName "self") "displayed_melee_armour")]); (ECall (EAttr (EName "self") "write_int_16") [(EAttr (EName "self") "displayed_attack")]); (ECall (EAttr (EName "self") "write_float") [(EAttr (EName "self") "displayed_range")]); (ECall (EAttr (EName "self") "write_float") [(EAttr (EName "self") "displayed_reload_time")]); (ECall (EAttr (EName "self") "write_float") [(EAttr (EName "self") "blast_damage")])])]);
  SIf (ECmp CGe (EName "version") (EAttr (EName "Version") "VER_84")) [
    SAdd "value" (ECall (EAttr (EConst (KBytes [])) "join") [(EList [(ECall (EAttr (EName "self") "write_float") [(EAttr (EName "self") "damage_reflection")]); (ECall (EAttr (EName "self") "write_float") [(EAttr (EName "self") "friendly_fire_damage")]); (ECall (EAttr (EName "self") "write_int_16") [(EAttr (EName "self") "interrupt_frame")]); (ECall (EAttr (EName "self") "write_float") [(EAttr (EName "self") "garrison_firepower")]); (ECall (EAttr (EName "self") "write_int_16") [(EAttr (EName "self") "attack_graphic_2")])])])] [];
  SReturn (EName "value")].
(** unit.py:216 class Type50 *)
Definition src_Type50 : class := mkClass Dataclass ["GenieClass"]
  ["base_armor"; "attacks"; "armours"; "defense_terrain_bonus"; "bonus_damage_resistance"; "max_range"; "blast_width"; "reload_time"; "projectile_unit_id"; "accuracy_percent"; "break_off_combat"; "frame_delay"; "graphic_displacement"; "blast_attack_level"; "min_range"; "accuracy_dispersion"; "attack_graphic"; "displayed_melee_armour"; "displayed_attack"; "displayed_range"; "displayed_reload_time"; "blast_damage"; "damage_reflection"; "friendly_fire_damage"; "interrupt_frame"; "garrison_firepower"; "attack_graphic_2"]
  []
  []
  [("from_bytes", src_Type50_from_bytes); ("to_bytes", src_Type50_to_bytes)].

(** unit.py:364-378 Projectile.from_bytes *)
Definition src_Projectile_from_bytes : func := mkFunc ClassMethod "unit" ["cls"; "content"] [] [
  SUnpack ["projectile_type"; "smart_mode"; "hit_mode"; "vanish_mode"; "area_effect_specials"; "projectile_arc"] (ECall (EAttr (EName "struct") "unpack") [(EName "PROJECTILE_FORMAT"); (ECall (EAttr (EName "content") "consume_range") [(EName "PROJECTILE_FORMAT_LENGTH")])]);
  SReturn (ECall (EName "cls") [EKw "projectile_type" (EName "projectile_type"); EKw "smart_mode" (EName "smart_mode"); EKw "hit_mode" (EName "hit_mode"); EKw "vanish_mode" (EName "vanish_mode"); EKw "area_effect_specials" (EName "area_effect_specials"); EKw "projectile_arc" (EName "projectile_arc")])].
(** unit.py:380-388 Projectile.to_bytes *)
Definition src_Projectile_to_bytes : func := mkFunc Method "unit" ["self"; "version"] [] [
  SReturn (ECall (EAttr (EName "struct") "pack") [(EName "PROJECTILE_FORMAT"); (EAttr (EName "self") "projectile_type"); (EAttr (EName "self") "smart_mode"); (EAttr (EName "self") "hit_mode"); (EAttr (EName "self") "vanish_mode"); (EAttr (EName "self") "area_effect_specials"); (EAttr (EName "self") "projectile_arc")])].
(** unit.py:355 class Projectile *)
Definition src_Projectile : class := mkClass Dataclass ["GenieClass"]
  ["projectile_type"; "smart_mode"; "hit_mode"; "vanish_mode"; "area_effect_specials"; "projectile_arc"]
  []
  []
  [("from_bytes", src_Projectile_from_bytes); ("to_bytes", src_Projectile_to_bytes)].

(** unit.py:402-408 ResourceCost.from_bytes *)
Definition src_ResourceCost_from_bytes : func := mkFunc ClassMethod "unit" ["cls"; "content"] [] [
  SUnpack ["type_"; "amount"; "flag"] (ECall (EAttr (EName "struct") "unpack") [(EName "RESOURCE_COST_FORMAT"); (ECall (EAttr (EName "content") "consume_range") [(EName "RESOURCE_COST_FORMAT_LENGTH")])]);
  SReturn (ECall (EName "cls") [EKw "type" (EName "type_"); EKw "amount" (EName "amount"); EKw "flag" (EName "flag")])].
(** unit.py:410-411 ResourceCost.to_bytes *)
Definition src_ResourceCost_to_bytes : func := mkFunc Method "unit" ["self"; "version"] [] [
  SReturn (ECall (EAttr (EName "struct") "pack") [(EName "RESOURCE_COST_FORMAT"); (EAttr (EName "self") "type"); (EAttr (EName "self") "amount"); (EAttr (EName "self") "flag")])].
(** unit.py:396 class ResourceCost *)
Definition src_ResourceCost : class := mkClass Dataclass ["GenieClass"]
  ["type"; "amount"; "flag"]
  []
  []
  [("from_bytes", src_ResourceCost_from_bytes); ("to_bytes", src_ResourceCost_to_bytes)].

(** unit.py:429-432 TrainLocation.from_bytes *)
Definition src_TrainLocation_from_bytes : func := mkFunc ClassMethod "unit" ["cls"; "content"] [] [
  SIf (ECmp CGe (EAttr (EName "content") "version") (EAttr (EName "Version") "VER_88")) [
    SReturn (ECall (EAttr (EName "cls") "from_bytes_88") [(EName "content")])] [];
  SReturn (ECall (EAttr (EName "cls") "from_bytes_84") [(EName "content")])].
(** unit.py:435-444 TrainLocation.from_bytes_84 *)
Definition src_TrainLocation_from_bytes_84 : func := mkFunc ClassMethod "unit" ["cls"; "content"] [] [
  SUnpack ["train_time"; "unit_id"; "button_id"] (ECall (EAttr (EName "struct") "unpack") [(EName "TRAIN_LOCATION_FORMAT"); (ECall (EAttr (EName "content") "consume_range") [(EName "TRAIN_LOCATOIN_FORMAT_LENGTH")])]);
  SReturn (ECall (EName "cls") [EKw "train_time" (EName "train_time"); EKw "unit_id" (EName "unit_id"); EKw "button_id" (EName "button_id"); EKw "hot_key_id" (EConst (KInt 16000))])].
(** unit.py:447-457 TrainLocation.from_bytes_88 *)
Definition src_TrainLocation_from_bytes_88 : func := mkFunc ClassMethod "unit" ["cls"; "content"] [] [
  SUnpack ["train_time"; "unit_id"; "button_id"; "hot_key_id"] (ECall (EAttr (EName "struct") "unpack") [(EName "TRAIN_LOCATION_FORMAT_88"); (ECall (EAttr (EName "content") "consume_range") [(EName "TRAIN_LOCATOIN_FORMAT_LENGTH_88")])]);
  SReturn (ECall (EName "cls") [EKw "train_time" (EName "train_time"); EKw "unit_id" (EName "unit_id"); EKw "button_id" (EName "button_id"); EKw "hot_key_id" (EName "hot_key_id")])].
(** unit.py:459-462 TrainLocation.to_bytes *)
Definition src_TrainLocation_to_bytes : func := mkFunc Method "unit" ["self"; "version"] [] [
  SIf (ECmp CGe (EName "version") (EAttr (EName "Version") "VER_88")) [
    SReturn (ECall (EAttr (EName "struct") "pack") [(EName "TRAIN_LOCATION_FORMAT_88"); (EAttr (EName "self") "train_time"); (EAttr (EName "self") "unit_id"); (EAttr (EName "self") "button_id"); (EAttr (EName "self") "hot_key_id")])] [];
  SReturn (ECall (EAttr (EName "struct") "pack") [(EName "TRAIN_LOCATION_FORMAT"); (EAttr (EName "self") "train_time"); (EAttr (EName "self") "unit_id"); (EAttr (EName "self") "button_id")])].
(** unit.py:422 class TrainLocation *)
Definition src_TrainLocation : class := mkClass Dataclass ["GenieClass"]
  ["train_time"; "unit_id"; "button_id"; "hot_key_id"]
  []
  []
  [("from_bytes", src_TrainLocation_from_bytes); ("from_bytes_84", src_TrainLocation_from_bytes_84); ("from_bytes_88", src_TrainLocation_from_bytes_88); ("to_bytes", src_TrainLocation_to_bytes)].

(** unit.py:510-515 Creatable.from_bytes *)
Definition src_Creatable_from_bytes : func := mkFunc ClassMethod "unit" ["cls"; "content"] [] [
  SIf (ECmp CGe (EAttr (EName "content") "version") (EAttr (EName "Version") "VER_88")) [
    SReturn (ECall (EAttr (EName "cls") "from_bytes_88") [(EName "content")])] [
    SIf (ECmp CGe (EAttr (EName "content") "version") (EAttr (EName "Version") "VER_84")) [
      SReturn (ECall (EAttr (EName "cls") "from_bytes_84") [(EName "content")])] []];
  SReturn (ECall (EAttr (EName "cls") "from_bytes_78") [(EName "content")])].
(** unit.py:518-596 Creatable.from_bytes_78 *)
Definition src_Creatable_from_bytes_78 : func := mkFunc ClassMethod "unit" ["cls"; "content"] [] [
  SAssign "resource_costs" (ECall (EAttr (EName "content") "read_class_array_3") [(EName "ResourceCost")]);
  SUnpack ["train_time"; "train_location_id"; "button_id"; "rear_attack_modifier"; "flank_attack_modifier"; "creatable_type"; "hero_mode"; "garrison_graphic"; "spawning_graphic"; "upgrade_graphic"; "hero_glow_graphic"; "max_charge"; "recharge_rate"; "charge_event"; "charge_type"; "min_conversion_time_mod"; "max_conversion_time_mod"; "conversion_chance_mod"; "total_projectiles"; "max_total_projectiles"; "projectile_spawning_area_1"; "projectile_spawning_area_2"; "projectile_spawning_area_3"; "secondary_projectile_unit"; "special_graphic"; "special_ability"; "displayed_pierce_armour"] (ECall (EAttr (EName "struct") "unpack") [(EName "CREATABLE_FORMAT"); (ECall (EAttr (EName "content") "consume_range") [(EName "CREATABLE_FORMAT_LENGTH")])]);
  SAssign "idle_attack_graphic" (ENeg (EConst (KInt 1)));
  SAssign "charge_target" (EConst (KInt 0));
  SAssign "charge_projectile_unit" (ENeg (EConst (KInt 1)));
  SAssign "attack_priority" (EConst (KInt 0));
  SAssign "invulnerability_level" (EConst (KInt 0));
  SAssign "button_icon_id" (ENeg (EConst (KInt 1)));
  SAssign "button_short_tooltip_id" (ENeg (EConst (KInt 1)));
  SAssign "button_extended_tooltip_id" (ENeg (EConst (KInt 1)));
  SAssign "button_hotkey_action" (ENeg (EConst (KInt 1)));
  SAssign "train_locations" (EList [(ECall (EName "TrainLocation") [EKw "train_time" (EName "train_time"); EKw "unit_id" (EName "train_location_id"); EKw "button_id" (EName "button_id"); EKw "hot_key_id" (EConst (KInt 16000))])]);
  SReturn (ECall (EName "cls") [EKw "resource_costs" (EName "resource_costs"); EKw "train_locations" (EName "train_locations"); EKw "rear_attack_modifier" (EName "rear_attack_modifier"); EKw "flank_attack_modifier" (EName "flank_attack_modifier"); EKw "creatable_type" (EName "creatable_type"); EKw "hero_mode" (EName "hero_mode"); EKw "garrison_graphic" (EName "garrison_graphic"); EKw "spawning_graphic" (EName "spawning_graphic"); EKw "upgrade_graphic" (EName "upgrade_graphic"); EKw "hero_glow_graphic" (EName "hero_glow_graphic"); EKw "idle_attack_graphic" (EName "idle_attack_graphic"); EKw "max_charge" (EName "max_charge"); EKw "recharge_rate" (EName "recharge_rate"); EKw "charge_event" (EName "charge_event"); EKw "charge_type" (EName "charge_type"); EKw "charge_target" (EName "charge_target"); EKw "charge_projectile_unit" (EName "charge_projectile_unit"); EKw "attack_priority" (EName "attack_priority"); EKw "invulnerability_level" (EName "invulnerability_level"); EKw "button_icon_id" (EName "button_icon_id"); EKw "button_short_tooltip_id" (EName "button_short_tooltip_id"); EKw "button_extended_tooltip_id" (EName "button_extended_tooltip_id"); EKw "button_hotkey_action" (EName "button_hotkey_action"); EKw "min_conversion_time_mod" (EName "min_conversion_time_mod"); EKw "max_conversion_time_mod" (EName "max_conversion_time_mod"); EKw "conversion_chance_mod" (EName "conversion_chance_mod"); EKw "total_projectiles" (EName "total_projectiles"); EKw "max_total_projectiles" (EName "max_total_projectiles"); EKw "projectile_spawning_area" (ETuple [(EName "projectile_spawning_area_1"); (EName "projectile_spawning_area_2"); (EName "projectile_spawning_area_3")]); EKw "secondary_projectile_unit" (EName "secondary_projectile_unit"); EKw "special_graphic" (EName "special_graphic"); EKw "special_ability" (EName "special_ability"); EKw "displayed_pierce_armour" (EName "displayed_pierce_armour")])].
(** unit.py:599-678 Creatable.from_bytes_84 *)
Definition src_Creatable_from_bytes_84 : func := mkFunc ClassMethod "unit" ["cls"; "content"] [] [
  SAssign "resource_costs" (ECall (EAttr (EName "content") "read_class_array_3") [(EName "ResourceCost")]);
  SUnpack ["train_time"; "train_location_id"; "button_id"; "rear_attack_modifier"; "flank_attack_modifier"; "creatable_type"; "hero_mode"; "garrison_graphic"; "spawning_graphic"; "upgrade_graphic"; "hero_glow_graphic"; "idle_attack_graphic"; "max_charge"; "recharge_rate"; "charge_event"; "charge_type"; "charge_target"; "charge_projectile_unit"; "attack_priority"; "invulnerability_level"; "button_icon_id"; "button_short_tooltip_id"; "button_extended_tooltip_id"; "button_hotkey_action"; "min_conversion_time_mod"; "max_conversion_time_mod"; "conversion_chance_mod"; "total_projectiles"; "max_total_projectiles"; "projectile_spawning_area_1"; "projectile_spawning_area_2"; "projectile_spawning_area_3"; "secondary_projectile_unit"; "special_graphic"; "special_ability"; "displayed_pierce_armour"] (ECall (EAttr (EName "struct") "unpack") [(EName "CREATABLE_FORMAT_84"); (ECall (EAttr (EName "content") "consume_range") [(EName "CREATABLE_FORMAT_LENGTH_84")])]);
  SAssign "train_locations" (EList [(ECall (EName "TrainLocation") [EKw "train_time" (EName "train_time"); EKw "unit_id" (EName "train_location_id"); EKw "button_id" (EName "button_id"); EKw "hot_key_id" (EConst (KInt 16000))])]);
  SReturn (ECall (EName "cls") [EKw "resource_costs" (EName "resource_costs"); EKw "train_locations" (EName "train_locations"); EKw "rear_attack_modifier" (EName "rear_attack_modifier"); EKw "flank_attack_modifier" (EName "flank_attack_modifier"); EKw "creatable_type" (EName "creatable_type"); EKw "hero_mode" (EName "hero_mode"); EKw "garrison_graphic" (EName "garrison_graphic"); EKw "spawning_graphic" (EName "spawning_graphic"); EKw "upgrade_graphic" (EName "upgrade_graphic"); EKw "hero_glow_graphic" (EName "hero_glow_graphic"); EKw "idle_attack_graphic" (EName "idle_attack_graphic"); EKw "max_charge" (EName "max_charge"); EKw "recharge_rate" (EName "recharge_rate"); EKw "charge_event" (EName "charge_event"); EKw "charge_type" (EName "charge_type"); EKw "charge_target" (EName "charge_target"); EKw "charge_projectile_unit" (EName "charge_projectile_unit"); EKw "attack_priority" (EName "attack_priority"); EKw "invulnerability_level" (EName "invulnerability_level"); EKw "button_icon_id" (EName "button_icon_id"); EKw "button_short_tooltip_id" (EName "button_short_tooltip_id"); EKw "button_extended_tooltip_id" (EName "button_extended_tooltip_id"); EKw "button_hotkey_action" (EName "button_hotkey_action"); EKw "min_conversion_time_mod" (EName "min_conversion_time_mod"); EKw "max_conversion_time_mod" (EName "max_conversion_time_mod"); EKw "conversion_chance_mod" (EName "conversion_chance_mod"); EKw "total_projectiles" (EName "total_projectiles"); EKw "max_total_projectiles" (EName "max_total_projectiles"); EKw "projectile_spawning_area" (ETuple [(EName "projectile_spawning_area_1"); (EName "projectile_spawning_area_2"); (EName "projectile_spawning_area_3")]); EKw "secondary_projectile_unit" (EName "secondary_projectile_unit"); EKw "special_graphic" (EName "special_graphic"); EKw "special_ability" (EName "special_ability"); EKw "displayed_pierce_armour" (EName "displayed_pierce_armour")])].
(** unit.py:681-756 Creatable.from_bytes_88 *)
Definition src_Creatable_from_bytes_88 : func := mkFunc ClassMethod "unit" ["cls"; "content"] [] [
  SAssign "resource_costs" (ECall (EAttr (EName "content") "read_class_array_3") [(EName "ResourceCost")]);
  SAssign "train_location_count" (ECall (EAttr (EName "content") "read_int_16") []);
  SAssign "train_locations" (ECall (EAttr (EName "content") "read_class_array") [(EName "TrainLocation"); (EName "train_location_count")]);
  SUnpack ["rear_attack_modifier"; "flank_attack_modifier"; "creatable_type"; "hero_mode"; "garrison_graphic"; "spawning_graphic"; "upgrade_graphic"; "hero_glow_graphic"; "idle_attack_graphic"; "max_charge"; "recharge_rate"; "charge_event"; "charge_type"; "charge_target"; "charge_projectile_unit"; "attack_priority"; "invulnerability_level"; "button_icon_id"; "button_short_tooltip_id"; "button_extended_tooltip_id"; "button_hotkey_action"; "min_conversion_time_mod"; "max_conversion_time_mod"; "conversion_chance_mod"; "total_projectiles"; "max_total_projectiles"; "projectile_spawning_area_1"; "projectile_spawning_area_2"; "projectile_spawning_area_3"; "secondary_projectile_unit"; "special_graphic"; "special_ability"; "displayed_pierce_armour"] (ECall (EAttr (EName "struct") "unpack") [(EName "CREATABLE_FORMAT_88"); (ECall (EAttr (EName "content") "consume_range") [(EName "CREATABLE_FORMAT_LENGTH_88")])]);
  SReturn (ECall (EName "cls") [EKw "resource_costs" (EName "resource_costs"); EKw "train_locations" (EName "train_locations"); EKw "rear_attack_modifier" (EName "rear_attack_modifier"); EKw "flank_attack_modifier" (EName "flank_attack_modifier"); EKw "creatable_type" (EName "creatable_type"); EKw "hero_mode" (EName "hero_mode"); EKw "garrison_graphic" (EName "garrison_graphic"); EKw "spawning_graphic" (EName "spawning_graphic"); EKw "upgrade_graphic" (EName "upgrade_graphic"); EKw "hero_glow_graphic" (EName "hero_glow_graphic"); EKw "idle_attack_graphic" (EName "idle_attack_graphic"); EKw "max_charge" (EName "max_charge"); EKw "recharge_rate" (EName "recharge_rate"); EKw "charge_event" (EName "charge_event"); EKw "charge_type" (EName "charge_type"); EKw "charge_target" (EName "charge_target"); EKw "charge_projectile_unit" (EName "charge_projectile_unit"); EKw "attack_priority" (EName "attack_priority"); EKw "invulnerability_level" (EName "invulnerability_level"); EKw "button_icon_id" (EName "button_icon_id"); EKw "button_short_tooltip_id" (EName "button_short_tooltip_id"); EKw "button_extended_tooltip_id" (EName "button_extended_tooltip_id"); EKw "button_hotkey_action" (EName "button_hotkey_action"); EKw "min_conversion_time_mod" (EName "min_conversion_time_mod"); EKw "max_conversion_time_mod" (EName "max_conversion_time_mod"); EKw "conversion_chance_mod" (EName "conversion_chance_mod"); EKw "total_projectiles" (EName "total_projectiles"); EKw "max_total_projectiles" (EName "max_total_projectiles"); EKw "projectile_spawning_area" (ETuple [(EName "projectile_spawning_area_1"); (EName "projectile_spawning_area_2"); (EName "projectile_spawning_area_3")]); EKw "secondary_projectile_unit" (EName "secondary_projectile_unit"); EKw "special_graphic" (EName "special_graphic"); EKw "special_ability" (EName "special_ability"); EKw "displayed_pierce_armour" (EName "displayed_pierce_armour")])].
(** unit.py:758-763 Creatable.to_bytes *)
Definition src_Creatable_to_bytes : func := mkFunc Method "unit" ["self"; "version"] [] [
  SIf (ECmp CGe (EName "version") (EAttr (EName "Version") "VER_88")) [
    SReturn (ECall (EAttr (EName "self") "to_bytes_88") [(EName "version")])] [];
  SIf (ECmp CGe (EName "version") (EAttr (EName "Version") "VER_84")) [
    SReturn (ECall (EAttr (EName "self") "to_bytes_84") [(EName "version")])] [];
  SReturn (ECall (EAttr (EName "self") "to_bytes_78") [(EName "version")])].
(** unit.py:765-793 Creatable.to_bytes_78 *)
Definition src_Creatable_to_bytes_78 : func := mkFunc Method "unit" ["self"; "version"] [] [
  SReturn (EBin BAdd (ECall (EAttr (EName "self") "write_class_array") [(EAttr (EName "self") "resource_costs"); (EName "version")]) (ECall (EAttr (EName "struct") "pack") [(EName "CREATABLE_FORMAT"); (EAttr (EIndex (EAttr (EName "self") "train_locations") (EConst (KInt 0))) "train_time"); (EAttr (EIndex (EAttr (EName "self") "train_locations") (EConst (KInt 0))) "unit_id"); (EAttr (EIndex (EAttr (EName "self") "train_locations") (EConst (KInt 0))) "button_id"); (EAttr (EName "self") "rear_attack_modifier"); (EAttr (EName "self") "flank_attack_modifier"); (EAttr (EName "self") "creatable_type"); (EAttr (EName "self") "hero_mode"); (EAttr (EName "self") "garrison_graphic"); (EAttr (EName "self") "spawning_graphic"); (EAttr (EName "self") "upgrade_graphic"); (EAttr (EName "self") "hero_glow_graphic"); (EAttr (EName "self") "max_charge"); (EAttr (EName "self") "recharge_rate"); (EAttr (EName "self") "charge_event"); (EAttr (EName "self") "charge_type"); (EAttr (EName "self") "min_conversion_time_mod"); (EAttr (EName "self") "max_conversion_time_mod"); (EAttr (EName "self") "conversion_chance_mod"); (EAttr (EName "self") "total_projectiles"); (EAttr (EName "self") "max_total_projectiles"); EStar (EAttr (EName "self") "projectile_spawning_area"); (EAttr (EName "self") "secondary_projectile_unit"); (EAttr (EName "self") "special_graphic"); (EAttr (EName "self") "special_ability"); (EAttr (EName "self") "displayed_pierce_armour")]))].
(** unit.py:795-832 Creatable.to_bytes_84 *)
Definition src_Creatable_to_bytes_84 : func := mkFunc Method "unit" ["self"; "version"] [] [
  SReturn (EBin BAdd (ECall (EAttr (EName "self") "write_class_array") [(EAttr (EName "self") "resource_costs"); (EName "version")]) (ECall (EAttr (EName "struct") "pack") [(EName "CREATABLE_FORMAT_84"); (EAttr (EIndex (EAttr (EName "self") "train_locations") (EConst (KInt 0))) "train_time"); (EAttr (EIndex (EAttr (EName "self") "train_locations") (EConst (KInt 0))) "unit_id"); (EAttr (EIndex (EAttr (EName "self") "train_locations") (EConst (KInt 0))) "button_id"); (EAttr (EName "self") "rear_attack_modifier"); (EAttr (EName "self") "flank_attack_modifier"); (EAttr (EName "self") "creatable_type"); (EAttr (EName "self") "hero_mode"); (EAttr (EName "self") "garrison_graphic"); (EAttr (EName "self") "spawning_graphic"); (EAttr (EName "self") "upgrade_graphic"); (EAttr (EName "self") "hero_glow_graphic"); (EAttr (EName "self") "idle_attack_graphic"); (EAttr (EName "self") "max_charge"); (EAttr (EName "self") "recharge_rate"); (EAttr (EName "self") "charge_event"); (EAttr (EName "self") "charge_type"); (EAttr (EName "self") "charge_target"); (EAttr (EName "self") "charge_projectile_unit"); (EAttr (EName "self") "attack_priority"); (EAttr (EName "self") "invulnerability_level"); (EAttr (EName "self") "button_icon_id"); (EAttr (EName "self") "button_short_tooltip_id"); (EAttr (EName "self") "button_extended_tooltip_id"); (EAttr (EName "self") "button_hotkey_action"); (EAttr (EName "self") "min_conversion_time_mod"); (EAttr (EName "self") "max_conversion_time_mod"); (EAttr (EName "self") "conversion_chance_mod"); (EAttr (EName "self") "total_projectiles"); (EAttr (EName "self") "max_total_projectiles"); EStar (EAttr (EName "self") "projectile_spawning_area"); (EAttr (EName "self") "secondary_projectile_unit"); (EAttr (EName "self") "special_graphic"); (EAttr (EName "self") "special_ability"); (EAttr (EName "self") "displayed_pierce_armour")]))].
(** unit.py:834-870 Creatable.to_bytes_88 *)
Definition src_Creatable_to_bytes_88 : func := mkFunc Method "unit" ["self"; "version"] [] [
  SReturn (EBin BAdd (EBin BAdd (EBin BAdd (ECall (EAttr (EName "self") "write_class_array") [(EAttr (EName "self") "resource_costs"); (EName "version")]) (ECall (EAttr (EName "self") "write_int_16") [(ECall (EName "len") [(EAttr (EName "self") "train_locations")])])) (ECall (EAttr (EName "self") "write_class_array") [(EAttr (EName "self") "train_locations"); (EName "version")])) (ECall (EAttr (EName "struct") "pack") [(EName "CREATABLE_FORMAT_88"); (EAttr (EName "self") "rear_attack_modifier"); (EAttr (EName "self") "flank_attack_modifier"); (EAttr (EName "self") "creatable_type"); (EAttr (EName "self") "hero_mode"); (EAttr (EName "self") "garrison_graphic"); (EAttr (EName "self") "spawning_graphic"); (EAttr (EName "self") "upgrade_graphic"); (EAttr (EName "self") "hero_glow_graphic"); (EAttr (EName "self") "idle_attack_graphic"); (EAttr (EName "self") "max_charge"); (EAttr (EName "self") "recharge_rate"); (EAttr (EName "self") "charge_event"); (EAttr (EName "self") "charge_type"); (EAttr (EName "self") "charge_target"); (EAttr (EName "self") "charge_projectile_unit"); (EAttr (EName "self") "attack_priority"); (EAttr (EName "self") "invulnerability_level"); (EAttr (EName "self") "button_icon_id"); (EAttr (EName "self") "button_short_tooltip_id"); (EAttr (EName "self") "button_extended_tooltip_id"); (EAttr (EName "self") "button_hotkey_action"); (EAttr (EName "self") "min_conversion_time_mod"); (EAttr (EName "self") "max_conversion_time_mod"); (EAttr (EName "self") "conversion_chance_mod"); (EAttr (EName "self") "total_projectiles"); (EAttr (EName "self") "max_total_projectiles"); EStar (EAttr (EName "self") "projectile_spawning_area"); (EAttr (EName "self") "secondary_projectile_unit"); (EAttr (EName "self") "special_graphic"); (EAttr (EName "self") "special_ability"); (EAttr (EName "self") "displayed_pierce_armour")]))].
(** unit.py:474 class Creatable *)
Definition src_Creatable : class := mkClass Dataclass ["GenieClass"]
  ["resource_costs"; "train_locations"; "rear_attack_modifier"; "flank_attack_modifier"; "creatable_type"; "hero_mode"; "garrison_graphic"; "spawning_graphic"; "upgrade_graphic"; "hero_glow_graphic"; "idle_attack_graphic"; "max_charge"; "recharge_rate"; "charge_event"; "charge_type"; "charge_target"; "charge_projectile_unit"; "attack_priority"; "invulnerability_level"; "button_icon_id"; "button_short_tooltip_id"; "button_extended_tooltip_id"; "button_hotkey_action"; "min_conversion_time_mod"; "max_conversion_time_mod"; "conversion_chance_mod"; "total_projectiles"; "max_total_projectiles"; "projectile_spawning_area"; "secondary_projectile_unit"; "special_graphic"; "special_ability"; "displayed_pierce_armour"]
  []
  []
  [("from_bytes", src_Creatable_from_bytes); ("from_bytes_78", src_Creatable_from_bytes_78); ("from_bytes_84", src_Creatable_from_bytes_84); ("from_bytes_88", src_Creatable_from_bytes_88); ("to_bytes", src_Creatable_to_bytes); ("to_bytes_78", src_Creatable_to_bytes_78); ("to_bytes_84", src_Creatable_to_bytes_84); ("to_bytes_88", src_Creatable_to_bytes_88)].

(** unit.py:884-891 BuildingAnnex.from_bytes *)
Definition src_BuildingAnnex_from_bytes : func := mkFunc ClassMethod "unit" ["cls"; "content"] [] [
  SUnpack ["unit_id"; "misplacement_x"; "misplacement_y"] (ECall (EAttr (EName "struct") "unpack") [(EName "BUILDING_ANNEX_FORMAT"); (ECall (EAttr (EName "content") "consume_range") [(EName "BUILDING_ANNEX_FORMAT_LENGTH")])]);
  SReturn (ECall (EName "cls") [EKw "unit_id" (EName "unit_id"); EKw "misplacement_x" (EName "misplacement_x"); EKw "misplacement_y" (EName "misplacement_y")])].
(** unit.py:893-898 BuildingAnnex.to_bytes *)
Definition src_BuildingAnnex_to_bytes : func := mkFunc Method "unit" ["self"; "version"] [] [
  SReturn (ECall (EAttr (EName "struct") "pack") [(EName "BUILDING_ANNEX_FORMAT"); (EAttr (EName "self") "unit_id"); (EAttr (EName "self") "misplacement_x"); (EAttr (EName "self") "misplacement_y")])].
(** unit.py:878 class BuildingAnnex *)
Definition src_BuildingAnnex : class := mkClass Dataclass ["GenieClass"]
  ["unit_id"; "misplacement_x"; "misplacement_y"]
  []
  []
  [("from_bytes", src_BuildingAnnex_from_bytes); ("to_bytes", src_BuildingAnnex_to_bytes)].

(** unit.py:938-1008 Building.from_bytes *)
Definition src_Building_from_bytes : func := mkFunc ClassMethod "unit" ["cls"; "content"] [] [
  SUnpack ["construction_graphic_id"; "snow_graphic_id"; "destruction_graphic_id"; "destruction_rubble_graphic_id"; "researching_graphic"; "research_completed_graphic"; "adjacent_mode"; "graphics_angle"; "disappears_when_built"; "stack_unit_id"; "foundation_terrain_id"; "old_overlap_id"; "tech_id"; "can_burn"] (ECall (EAttr (EName "struct") "unpack") [(EName "BUILDING_ANNEX_FORMAT_1"); (ECall (EAttr (EName "content") "consume_range") [(EName "BUILDING_ANNEX_FORMAT_1_LENGTH")])]);
  SAssign "annexes" (ECall (EAttr (EName "content") "read_class_array_4") [(EName "BuildingAnnex")]);
  SUnpack ["head_unit"; "transform_unit"; "transform_sound"; "construction_sound"; "wwise_transform_sound_id"; "wwise_construction_sound_id"; "garrison_type"; "garrison_heal_rate"; "garrison_repair_rate"; "pile_unit"; "looting_table_1"; "looting_table_2"; "looting_table_3"; "looting_table_4"; "looting_table_5"; "looting_table_6"] (ECall (EAttr (EName "struct") "unpack") [(EName "BUILDING_ANNEX_FORMAT_2"); (ECall (EAttr (EName "content") "consume_range") [(EName "BUILDING_ANNEX_FORMAT_2_LENGTH")])]);
  SReturn (ECall (EName "cls") [EKw "construction_graphic_id" (EName "construction_graphic_id"); EKw "snow_graphic_id" (EName "snow_graphic_id"); EKw "destruction_graphic_id" (EName "destruction_graphic_id"); EKw "destruction_rubble_graphic_id" (EName "destruction_rubble_graphic_id"); EKw "researching_graphic" (EName "researching_graphic"); EKw "research_completed_graphic" (EName "research_completed_graphic"); EKw "adjacent_mode" (EName "adjacent_mode"); EKw "graphics_angle" (EName "graphics_angle"); EKw "disappears_when_built" (EName "disappears_when_built"); EKw "stack_unit_id" (EName "stack_unit_id"); EKw "foundation_terrain_id" (EName "foundation_terrain_id"); EKw "old_overlap_id" (EName "old_overlap_id"); EKw "tech_id" (EName "tech_id"); EKw "can_burn" (EName "can_burn"); EKw "annexes" (EName "annexes"); EKw "head_unit" (EName "head_unit"); EKw "transform_unit" (EName "transform_unit"); EKw "transform_sound" (EName "transform_sound"); EKw "construction_sound" (EName "construction_sound"); EKw "wwise_transform_sound_id" (EName "wwise_transform_sound_id"); EKw "wwise_construction_sound_id" (EName "wwise_construction_sound_id"); EKw "garrison_type" (EName "garrison_type"); EKw "garrison_heal_rate" (EName "garrison_heal_rate"); EKw "garrison_repair_rate" (EName "garrison_repair_rate"); EKw "pile_unit" (EName "pile_unit"); EKw "looting_table" (ETuple [(EName "looting_table_1"); (EName "looting_table_2"); (EName "looting_table_3"); (EName "looting_table_4"); (EName "looting_table_5"); (EName "looting_table_6")])])].
(** unit.py:1010-1040 Building.to_bytes *)
Definition src_Building_to_bytes : func := mkFunc Method "unit" ["self"; "version"] [] [
  SReturn (EBin BAdd (EBin BAdd (ECall (EAttr (EName "struct") "pack") [(EName "BUILDING_ANNEX_FORMAT_1"); (EAttr (EName "self") "construction_graphic_id"); (EAttr (EName "self") "snow_graphic_id"); (EAttr (EName "self") "destruction_graphic_id"); (EAttr (EName "self") "destruction_rubble_graphic_id"); (EAttr (EName "self") "researching_graphic"); (EAttr (EName "self") "research_completed_graphic"); (EAttr (EName "self") "adjacent_mode"); (EAttr (EName "self") "graphics_angle"); (EAttr (EName "self") "disappears_when_built"); (EAttr (EName "self") "stack_unit_id"); (EAttr (EName "self") "foundation_terrain_id"); (EAttr (EName "self") "old_overlap_id"); (EAttr (EName "self") "tech_id"); (EAttr (EName "self") "can_burn")]) (ECall (EAttr (EName "self") "write_class_array") [(EAttr (EName "self") "annexes"); (EName "version")])) (ECall (EAttr (EName "struct") "pack") [(EName "BUILDING_ANNEX_FORMAT_2"); (EAttr (EName "self") "head_unit"); (EAttr (EName "self") "transform_unit"); (EAttr (EName "self") "transform_sound"); (EAttr (EName "self") "construction_sound"); (EAttr (EName "self") "wwise_transform_sound_id"); (EAttr (EName "self") "wwise_construction_sound_id"); (EAttr (EName "self") "garrison_type"); (EAttr (EName "self") "garrison_heal_rate"); (EAttr (EName "self") "garrison_repair_rate"); (EAttr (EName "self") "pile_unit"); EStar (EAttr (EName "self") "looting_table")]))].
(** unit.py:909 class Building *)
Definition src_Building : class := mkClass Dataclass ["GenieClass"]
  ["construction_graphic_id"; "snow_graphic_id"; "destruction_graphic_id"; "destruction_rubble_graphic_id"; "researching_graphic"; "research_completed_graphic"; "adjacent_mode"; "graphics_angle"; "disappears_when_built"; "stack_unit_id"; "foundation_terrain_id"; "old_overlap_id"; "tech_id"; "can_burn"; "annexes"; "head_unit"; "transform_unit"; "transform_sound"; "construction_sound"; "wwise_transform_sound_id"; "wwise_construction_sound_id"; "garrison_type"; "garrison_heal_rate"; "garrison_repair_rate"; "pile_unit"; "looting_table"]
  []
  []
  [("from_bytes", src_Building_from_bytes); ("to_bytes", src_Building_to_bytes)].

(** unit.py:1136-1139 Unit.from_bytes *)
Definition src_Unit_from_bytes : func := mkFunc ClassMethod "unit" ["cls"; "content"] [] [
  SIf (ECmp CGe (EAttr (EName "content") "version") (EAttr (EName "Version") "VER_88")) [
    SReturn (ECall (EAttr (EName "cls") "from_bytes_88") [(EName "content")])] [];
  SReturn (ECall (EAttr (EName "cls") "from_bytes_84") [(EName "content")])].
(** unit.py:1142-1331 Unit.from_bytes_84 *)
Definition src_Unit_from_bytes_84 : func := mkFunc ClassMethod "unit" ["cls"; "content"] [] [
  SUnpack ["type_"; "id_"; "language_dll_name"; "language_dll_creation"; "class_"; "standing_graphic_1"; "standing_graphic_2"; "dying_graphic"; "undead_graphic"; "undead_mode"; "hit_points"; "line_of_sight"; "garrison_capacity"; "collision_size_x"; "collision_size_y"; "collision_size_z"; "train_sound"; "damage_sound"; "dead_unit_id"; "blood_unit_id"; "sort_number"; "can_be_built_on"; "icon_id"; "hide_in_editor"; "old_portrait_pict"; "enabled"; "disabled"; "placement_side_terrain_1"; "placement_side_terrain_2"; "placement_terrain_1"; "placement_terrain_2"; "clearance_size_1"; "clearance_size_2"; "hill_mode"; "fog_visibility"; "terrain_restriction"; "fly_mode"; "resource_capacity"; "resource_decay"; "blast_defense_level"; "combat_level"; "interaction_mode"; "minimap_mode"; "interface_kind"; "multiple_attribute_mode"; "minimap_color"; "language_dll_help"; "language_dll_hotkey_text"; "hot_key"; "recyclable"; "enable_auto_gather"; "create_doppelganger_on_death"; "resource_gather_group"; "occlusion_mode"; "obstruction_type"; "obstruction_class"; "trait"; "civilization"; "nothing"; "selection_effect"; "editor_selection_colour"; "outline_size_x"; "outline_size_y"; "outline_size_z"; "scenario_triggers_1"; "scenario_triggers_2"] (ECall (EAttr (EName "struct") "unpack") [(EName "FORMAT"); (ECall (EAttr (EName "content") "consume_range") [(EName "FORMAT_LENGTH")])]);
  SAssign "resource_storages" (ECall (EAttr (EName "content") "read_class_array_3") [(EName "ResourceStorage")]);
  SAssign "damage_graphic_size" (ECall (EAttr (EName "content") "read_int_8") []);
  SAssign "damage_graphics" (ECall (EAttr (EName "content") "read_class_array") [(EName "DamageGraphic"); (EName "damage_graphic_size")]);
  SAssign "selection_sound" (ECall (EAttr (EName "content") "read_int_16") []);
  SAssign "dying_sound" (ECall (EAttr (EName "content") "read_int_16") []);
  SAssign "wwise_train_sound_id" (ECall (EAttr (EName "content") "read_int_32") []);
  SAssign "wwise_damage_sound_id" (ECall (EAttr (EName "content") "read_int_32") []);
  SAssign "wwise_selection_sound_id" (ECall (EAttr (EName "content") "read_int_32") []);
  SAssign "wwise_dying_sound_id" (ECall (EAttr (EName "content") "read_int_32") []);
  SAssign "old_attack_reaction" (ECall (EAttr (EName "content") "read_int_8") []);
  SAssign "convert_terrain" (ECall (EAttr (EName "content") "read_int_8") []);
  SAssign "name" (ECall (EAttr (EName "content") "read_debug_string") []);
  SAssign "copy_id" (ECall (EAttr (EName "content") "read_int_16") []);
  SAssign "base_id" (ECall (EAttr (EName "content") "read_int_16") []);
  SAssign "speed" (EConst KNone);
  SAssign "dead_fish" (EConst KNone);
  SAssign "bird" (EConst KNone);
  SAssign "type_50" (EConst KNone);
  SAssign "projectile" (EConst KNone);
  SAssign "creatable" (EConst KNone);
  SAssign "building" (EConst KNone);
  SIf (ECmp CNe (EName "type_") (EAttr (EName "UnitType") "AoeTrees")) [
    SIf (ECmp CGe (EName "type_") (EAttr (EName "UnitType") "Flag")) [
      SAssign "speed" (ECall (EAttr (EName "content") "read_float") []);
      SIf (ECmp CGe (EName "type_") (EAttr (EName "UnitType") "DeadFish")) [
        SAssign "dead_fish" (ECall (EAttr (EName "content") "read_class") [(EName "DeadFish")])] [];
      SIf (ECmp CGe (EName "type_") (EAttr (EName "UnitType") "Bird")) [
        SAssign "bird" (ECall (EAttr (EName "content") "read_class") [(EName "Bird")])] [];
      SIf (ECmp CGe (EName "type_") (EAttr (EName "UnitType") "Combatant")) [
        SAssign "type_50" (ECall (EAttr (EName "content") "read_class") [(EName "Type50")])] [];
      SIf (ECmp CEq (EName "type_") (EAttr (EName "UnitType") "Projectile")) [
        SAssign "projectile" (ECall (EAttr (EName "content") "read_class") [(EName "Projectile")])] [];
      SIf (ECmp CGe (EName "type_") (EAttr (EName "UnitType") "Creatable")) [
        SAssign "creatable" (ECall (EAttr (EName "content") "read_class") [(EName "Creatable")])] [];
      SIf (ECmp CEq (EName "type_") (EAttr (EName "UnitType") "Building")) [
        SAssign "building" (ECall (EAttr (EName "content") "read_class") [(EName "Building")])] []] []] [];
  SIf (EName "creatable") [
    SIf (ENot (EAttr (EName "creatable") "train_locations")) [
      SSetAttr (EName "creatable") "train_locations" (EList [(ECall (EName "TrainLocation") [EKw "train_time" (EConst (KInt 0)); EKw "unit_id" (ENeg (EConst (KInt 1))); EKw "button_id" (EConst (KInt 0)); EKw "hot_key_id" (EConst (KInt 16000))])])] [];
    SSetAttr (EIndex (EAttr (EName "creatable") "train_locations") (EConst (KInt 0))) "hot_key_id" (EName "hot_key")] [];
  SReturn (ECall (EName "cls") [EKw "type" (EName "type_"); EKw "id" (EName "id_"); EKw "language_dll_name" (EName "language_dll_name"); EKw "language_dll_creation" (EName "language_dll_creation"); EKw "class_" (EName "class_"); EKw "standing_graphic" (ETuple [(EName "standing_graphic_1"); (EName "standing_graphic_2")]); EKw "dying_graphic" (EName "dying_graphic"); EKw "undead_graphic" (EName "undead_graphic"); EKw "undead_mode" (EName "undead_mode"); EKw "hit_points" (EName "hit_points"); EKw "line_of_sight" (EName "line_of_sight"); EKw "garrison_capacity" (EName "garrison_capacity"); EKw "collision_size_x" (EName "collision_size_x"); EKw "collision_size_y" (EName "collision_size_y"); EKw "collision_size_z" (EName "collision_size_z"); EKw "train_sound" (EName "train_sound"); EKw "damage_sound" (EName "damage_sound"); EKw "dead_unit_id" (EName "dead_unit_id"); EKw "blood_unit_id" (EName "blood_unit_id"); EKw "sort_number" (EName "sort_number"); EKw "can_be_built_on" (EName "can_be_built_on"); EKw "icon_id" (EName "icon_id"); EKw "hide_in_editor" (EName "hide_in_editor"); EKw "old_portrait_pict" (EName "old_portrait_pict"); EKw "enabled" (EName "enabled"); EKw "disabled" (EName "disabled"); EKw "placement_side_terrain" (ETuple [(EName "placement_side_terrain_1"); (EName "placement_side_terrain_2")]); EKw "placement_terrain" (ETuple [(EName "placement_terrain_1"); (EName "placement_terrain_2")]); EKw "clearance_size" (ETuple [(EName "clearance_size_1"); (EName "clearance_size_2")]); EKw "hill_mode" (EName "hill_mode"); EKw "fog_visibility" (EName "fog_visibility"); EKw "terrain_restriction" (EName "terrain_restriction"); EKw "fly_mode" (EName "fly_mode"); EKw "resource_capacity" (EName "resource_capacity"); EKw "resource_decay" (EName "resource_decay"); EKw "blast_defense_level" (EName "blast_defense_level"); EKw "combat_level" (EName "combat_level"); EKw "interaction_mode" (EName "interaction_mode"); EKw "minimap_mode" (EName "minimap_mode"); EKw "interface_kind" (EName "interface_kind"); EKw "multiple_attribute_mode" (EName "multiple_attribute_mode"); EKw "minimap_color" (EName "minimap_color"); EKw "language_dll_help" (EName "language_dll_help"); EKw "language_dll_hotkey_text" (EName "language_dll_hotkey_text"); EKw "hot_key" (EName "hot_key"); EKw "recyclable" (EName "recyclable"); EKw "enable_auto_gather" (EName "enable_auto_gather"); EKw "create_doppelganger_on_death" (EName "create_doppelganger_on_death"); EKw "resource_gather_group" (EName "resource_gather_group"); EKw "occlusion_mode" (EName "occlusion_mode"); EKw "obstruction_type" (EName "obstruction_type"); EKw "obstruction_class" (EName "obstruction_class"); EKw "trait" (EName "trait"); EKw "civilization" (EName "civilization"); EKw "nothing" (EName "nothing"); EKw "selection_effect" (EName "selection_effect"); EKw "editor_selection_colour" (EName "editor_selection_colour"); EKw "outline_size_x" (EName "outline_size_x"); EKw "outline_size_y" (EName "outline_size_y"); EKw "outline_size_z" (EName "outline_size_z"); EKw "scenario_triggers_1" (EName "scenario_triggers_1"); EKw "scenario_triggers_2" (EName "scenario_triggers_2"); EKw "resource_storages" (EName "resource_storages"); EKw "damage_graphics" (EName "damage_graphics"); EKw "selection_sound" (EName "selection_sound"); EKw "dying_sound" (EName "dying_sound"); EKw "wwise_train_sound_id" (EName "wwise_train_sound_id"); EKw "wwise_damage_sound_id" (EName "wwise_damage_sound_id"); EKw "wwise_selection_sound_id" (EName "wwise_selection_sound_id"); EKw "wwise_dying_sound_id" (EName "wwise_dying_sound_id"); EKw "old_attack_reaction" (EName "old_attack_reaction"); EKw "convert_terrain" (EName "convert_terrain"); EKw "name" (EName "name"); EKw "copy_id" (EName "copy_id"); EKw "base_id" (EName "base_id"); EKw "speed" (EName "speed"); EKw "dead_fish" (EName "dead_fish"); EKw "bird" (EName "bird"); EKw "type_50" (EName "type_50"); EKw "projectile" (EName "projectile"); EKw "creatable" (EName "creatable"); EKw "building" (EName "building")])].
(** unit.py:1334-1520 Unit.from_bytes_88 *)
Definition src_Unit_from_bytes_88 : func := mkFunc ClassMethod "unit" ["cls"; "content"] [] [
  SUnpack ["type_"; "id_"; "language_dll_name"; "language_dll_creation"; "class_"; "standing_graphic_1"; "standing_graphic_2"; "dying_graphic"; "undead_graphic"; "undead_mode"; "hit_points"; "line_of_sight"; "garrison_capacity"; "collision_size_x"; "collision_size_y"; "collision_size_z"; "train_sound"; "damage_sound"; "dead_unit_id"; "blood_unit_id"; "sort_number"; "can_be_built_on"; "icon_id"; "hide_in_editor"; "old_portrait_pict"; "enabled"; "disabled"; "placement_side_terrain_1"; "placement_side_terrain_2"; "placement_terrain_1"; "placement_terrain_2"; "clearance_size_1"; "clearance_size_2"; "hill_mode"; "fog_visibility"; "terrain_restriction"; "fly_mode"; "resource_capacity"; "resource_decay"; "blast_defense_level"; "combat_level"; "interaction_mode"; "minimap_mode"; "interface_kind"; "multiple_attribute_mode"; "minimap_color"; "language_dll_help"; "language_dll_hotkey_text"; "recyclable"; "enable_auto_gather"; "create_doppelganger_on_death"; "resource_gather_group"; "occlusion_mode"; "obstruction_type"; "obstruction_class"; "trait"; "civilization"; "nothing"; "selection_effect"; "editor_selection_colour"; "outline_size_x"; "outline_size_y"; "outline_size_z"; "scenario_triggers_1"; "scenario_triggers_2"] (ECall (EAttr (EName "struct") "unpack") [(EName "FORMAT_88"); (ECall (EAttr (EName "content") "consume_range") [(EName "FORMAT_LENGTH_88")])]);
  SAssign "hot_key" (EConst (KInt 16000));
  SAssign "resource_storages" (ECall (EAttr (EName "content") "read_class_array_3") [(EName "ResourceStorage")]);
  SAssign "damage_graphic_size" (ECall (EAttr (EName "content") "read_int_8") []);
  SAssign "damage_graphics" (ECall (EAttr (EName "content") "read_class_array") [(EName "DamageGraphic"); (EName "damage_graphic_size")]);
  SAssign "selection_sound" (ECall (EAttr (EName "content") "read_int_16") []);
  SAssign "dying_sound" (ECall (EAttr (EName "content") "read_int_16") []);
  SAssign "wwise_train_sound_id" (ECall (EAttr (EName "content") "read_int_32") []);
  SAssign "wwise_damage_sound_id" (ECall (EAttr (EName "content") "read_int_32") []);
  SAssign "wwise_selection_sound_id" (ECall (EAttr (EName "content") "read_int_32") []);
  SAssign "wwise_dying_sound_id" (ECall (EAttr (EName "content") "read_int_32") []);
  SAssign "old_attack_reaction" (ECall (EAttr (EName "content") "read_int_8") []);
  SAssign "convert_terrain" (ECall (EAttr (EName "content") "read_int_8") []);
  SAssign "name" (ECall (EAttr (EName "content") "read_debug_string") []);
  SAssign "copy_id" (ECall (EAttr (EName "content") "read_int_16") []);
  SAssign "base_id" (ECall (EAttr (EName "content") "read_int_16") []);
  SAssign "speed" (EConst KNone);
  SAssign "dead_fish" (EConst KNone);
  SAssign "bird" (EConst KNone);
  SAssign "type_50" (EConst KNone);
  SAssign "projectile" (EConst KNone);
  SAssign "creatable" (EConst KNone);
  SAssign "building" (EConst KNone);
  SIf (ECmp CNe (EName "type_") (EAttr (EName "UnitType") "AoeTrees")) [
    SIf (ECmp CGe (EName "type_") (EAttr (EName "UnitType") "Flag")) [
      SAssign "speed" (ECall (EAttr (EName "content") "read_float") []);
      SIf (ECmp CGe (EName "type_") (EAttr (EName "UnitType") "DeadFish")) [
        SAssign "dead_fish" (ECall (EAttr (EName "content") "read_class") [(EName "DeadFish")])] [];
      SIf (ECmp CGe (EName "type_") (EAttr (EName "UnitType") "Bird")) [
        SAssign "bird" (ECall (EAttr (EName "content") "read_class") [(EName "Bird")])] [];
      SIf (ECmp CGe (EName "type_") (EAttr (EName "UnitType") "Combatant")) [
        SAssign "type_50" (ECall (EAttr (EName "content") "read_class") [(EName "Type50")])] [];
      SIf (ECmp CEq (EName "type_") (EAttr (EName "UnitType") "Projectile")) [
        SAssign "projectile" (ECall (EAttr (EName "content") "read_class") [(EName "Projectile")])] [];
      SIf (ECmp CGe (EName "type_") (EAttr (EName "UnitType") "Creatable")) [
        SAssign "creatable" (ECall (EAttr (EName "content") "read_class") [(EName "Creatable")])] [];
      SIf (ECmp CEq (EName "type_") (EAttr (EName "UnitType") "Building")) [
        SAssign "building" (ECall (EAttr (EName "content") "read_class") [(EName "Building")])] []] []] [];
  SIf (EAnd (EName "creatable") (EAttr (EName "creatable") "train_locations")) [
    SAssign "hot_key" (EAttr (EIndex (EAttr (EName "creatable") "train_locations") (EConst (KInt 0))) "hot_key_id")] [];
  SReturn (ECall (EName "cls") [EKw "type" (EName "type_"); EKw "id" (EName "id_"); EKw "language_dll_name" (EName "language_dll_name"); EKw "language_dll_creation" (EName "language_dll_creation"); EKw "class_" (EName "class_"); EKw "standing_graphic" (ETuple [(EName "standing_graphic_1"); (EName "standing_graphic_2")]); EKw "dying_graphic" (EName "dying_graphic"); EKw "undead_graphic" (EName "undead_graphic"); EKw "undead_mode" (EName "undead_mode"); EKw "hit_points" (EName "hit_points"); EKw "line_of_sight" (EName "line_of_sight"); EKw "garrison_capacity" (EName "garrison_capacity"); EKw "collision_size_x" (EName "collision_size_x"); EKw "collision_size_y" (EName "collision_size_y"); EKw "collision_size_z" (EName "collision_size_z"); EKw "train_sound" (EName "train_sound"); EKw "damage_sound" (EName "damage_sound"); EKw "dead_unit_id" (EName "dead_unit_id"); EKw "blood_unit_id" (EName "blood_unit_id"); EKw "sort_number" (EName "sort_number"); EKw "can_be_built_on" (EName "can_be_built_on"); EKw "icon_id" (EName "icon_id"); EKw "hide_in_editor" (EName "hide_in_editor"); EKw "old_portrait_pict" (EName "old_portrait_pict"); EKw "enabled" (EName "enabled"); EKw "disabled" (EName "disabled"); EKw "placement_side_terrain" (ETuple [(EName "placement_side_terrain_1"); (EName "placement_side_terrain_2")]); EKw "placement_terrain" (ETuple [(EName "placement_terrain_1"); (EName "placement_terrain_2")]); EKw "clearance_size" (ETuple [(EName "clearance_size_1"); (EName "clearance_size_2")]); EKw "hill_mode" (EName "hill_mode"); EKw "fog_visibility" (EName "fog_visibility"); EKw "terrain_restriction" (EName "terrain_restriction"); EKw "fly_mode" (EName "fly_mode"); EKw "resource_capacity" (EName "resource_capacity"); EKw "resource_decay" (EName "resource_decay"); EKw "blast_defense_level" (EName "blast_defense_level"); EKw "combat_level" (EName "combat_level"); EKw "interaction_mode" (EName "interaction_mode"); EKw "minimap_mode" (EName "minimap_mode"); EKw "interface_kind" (EName "interface_kind"); EKw "multiple_attribute_mode" (EName "multiple_attribute_mode"); EKw "minimap_color" (EName "minimap_color"); EKw "language_dll_help" (EName "language_dll_help"); EKw "language_dll_hotkey_text" (EName "language_dll_hotkey_text"); EKw "hot_key" (EName "hot_key"); EKw "recyclable" (EName "recyclable"); EKw "enable_auto_gather" (EName "enable_auto_gather"); EKw "create_doppelganger_on_death" (EName "create_doppelganger_on_death"); EKw "resource_gather_group" (EName "resource_gather_group"); EKw "occlusion_mode" (EName "occlusion_mode"); EKw "obstruction_type" (EName "obstruction_type"); EKw "obstruction_class" (EName "obstruction_class"); EKw "trait" (EName "trait"); EKw "civilization" (EName "civilization"); EKw "nothing" (EName "nothing"); EKw "selection_effect" (EName "selection_effect"); EKw "editor_selection_colour" (EName "editor_selection_colour"); EKw "outline_size_x" (EName "outline_size_x"); EKw "outline_size_y" (EName "outline_size_y"); EKw "outline_size_z" (EName "outline_size_z"); EKw "scenario_triggers_1" (EName "scenario_triggers_1"); EKw "scenario_triggers_2" (EName "scenario_triggers_2"); EKw "resource_storages" (EName "resource_storages"); EKw "damage_graphics" (EName "damage_graphics"); EKw "selection_sound" (EName "selection_sound"); EKw "dying_sound" (EName "dying_sound"); EKw "wwise_train_sound_id" (EName "wwise_train_sound_id"); EKw "wwise_damage_sound_id" (EName "wwise_damage_sound_id"); EKw "wwise_selection_sound_id" (EName "wwise_selection_sound_id"); EKw "wwise_dying_sound_id" (EName "wwise_dying_sound_id"); EKw "old_attack_reaction" (EName "old_attack_reaction"); EKw "convert_terrain" (EName "convert_terrain"); EKw "name" (EName "name"); EKw "copy_id" (EName "copy_id"); EKw "base_id" (EName "base_id"); EKw "speed" (EName "speed"); EKw "dead_fish" (EName "dead_fish"); EKw "bird" (EName "bird"); EKw "type_50" (EName "type_50"); EKw "projectile" (EName "projectile"); EKw "creatable" (EName "creatable"); EKw "building" (EName "building")])].
(** unit.py:1522-1525 Unit.to_bytes *)
Definition src_Unit_to_bytes : func := mkFunc Method "unit" ["self"; "version"] [] [
  SIf (ECmp CGe (EName "version") (EAttr (EName "Version") "VER_88")) [
    SReturn (ECall (EAttr (EName "self") "to_bytes_88") [(EName "version")])] [];
  SReturn (ECall (EAttr (EName "self") "to_bytes_84") [(EName "version")])].
(** unit.py:1527-1635 Unit.to_bytes_84 *)
Definition src_Unit_to_bytes_84 : func := mkFunc Method "unit" ["self"; "version"] [] [
  SAssign "speed" (EConst (KBytes []));
  SAssign "dead_fish" (EConst (KBytes []));
  SAssign "bird" (EConst (KBytes []));
  SAssign "type_50" (EConst (KBytes []));
  SAssign "projectile" (EConst (KBytes []));
  SAssign "creatable" (EConst (KBytes []));
  SAssign "building" (EConst (KBytes []));
  SIf (ECmp CNe (EAttr (EName "self") "type") (EAttr (EName "UnitType") "AoeTrees")) [
    SIf (ECmp CGe (EAttr (EName "self") "type") (EAttr (EName "UnitType") "Flag")) [
      SAssign "speed" (EIf (ECmp CIsNot (EAttr (EName "self") "speed") (EConst KNone)) (ECall (EAttr (EName "self") "write_float") [(EAttr (EName "self") "speed")]) (EConst (KBytes [])));
      SIf (ECmp CGe (EAttr (EName "self") "type") (EAttr (EName "UnitType") "DeadFish")) [
        SAssign "dead_fish" (EIf (ECmp CIsNot (EAttr (EName "self") "dead_fish") (EConst KNone)) (ECall (EAttr (EName "self") "write_class") [(EAttr (EName "self") "dead_fish"); (EName "version")]) (EConst (KBytes [])))] [];
      SIf (ECmp CGe (EAttr (EName "self") "type") (EAttr (EName "UnitType") "Bird")) [
        SAssign "bird" (EIf (ECmp CIsNot (EAttr (EName "self") "bird") (EConst KNone)) (ECall (EAttr (EName "self") "write_class") [(EAttr (EName "self") "bird"); (EName "version")]) (EConst (KBytes [])))] [];
      SIf (ECmp CGe (EAttr (EName "self") "type") (EAttr (EName "UnitType") "Combatant")) [
        SAssign "type_50" (EIf (ECmp CIsNot (EAttr (EName "self") "type_50") (EConst KNone)) (ECall (EAttr (EName "self") "write_class") [(EAttr (EName "self") "type_50"); (EName "version")]) (EConst (KBytes [])))] [];
      SIf (ECmp CEq (EAttr (EName "self") "type") (EAttr (EName "UnitType") "Projectile")) [
        SAssign "projectile" (EIf (ECmp CIsNot (EAttr (EName "self") "projectile") (EConst KNone)) (ECall (EAttr (EName "self") "write_class") [(EAttr (EName "self") "projectile"); (EName "version")]) (EConst (KBytes [])))] [];
      SIf (ECmp CGe (EAttr (EName "self") "type") (EAttr (EName "UnitType") "Creatable")) [
        SAssign "creatable" (EIf (ECmp CIsNot (EAttr (EName "self") "creatable") (EConst KNone)) (ECall (EAttr (EName "self") "write_class") [(EAttr (EName "self") "creatable"); (EName "version")]) (EConst (KBytes [])))] [];
      SIf (ECmp CEq (EAttr (EName "self") "type") (EAttr (EName "UnitType") "Building")) [
        SAssign "building" (EIf (ECmp CIsNot (EAttr (EName "self") "building") (EConst KNone)) (ECall (EAttr (EName "self") "write_class") [(EAttr (EName "self") "building"); (EName "version")]) (EConst (KBytes [])))] []] []] [];
  SReturn (EBin BAdd (ECall (EAttr (EName "struct") "pack") [(EName "FORMAT"); (EAttr (EName "self") "type"); (EAttr (EName "self") "id"); (EAttr (EName "self") "language_dll_name"); (EAttr (EName "self") "language_dll_creation"); (EAttr (EName "self") "class_"); EStar (EAttr (EName "self") "standing_graphic"); (EAttr (EName "self") "dying_graphic"); (EAttr (EName "self") "undead_graphic"); (EAttr (EName "self") "undead_mode"); (EAttr (EName "self") "hit_points"); (EAttr (EName "self") "line_of_sight"); (EAttr (EName "self") "garrison_capacity"); (EAttr (EName "self") "collision_size_x"); (EAttr (EName "self") "collision_size_y"); (EAttr (EName "self") "collision_size_z"); (EAttr (EName "self") "train_sound"); (EAttr (EName "self") "damage_sound"); (EAttr (EName "self") "dead_unit_id"); (EAttr (EName "self") "blood_unit_id"); (EAttr (EName "self") "sort_number"); (EAttr (EName "self") "can_be_built_on"); (EAttr (EName "self") "icon_id"); (EAttr (EName "self") "hide_in_editor"); (EAttr (EName "self") "old_portrait_pict"); (EAttr (EName "self") "enabled"); (EAttr (EName "self") "disabled"); EStar (EAttr (EName "self") "placement_side_terrain"); EStar (EAttr (EName "self") "placement_terrain"); EStar (EAttr (EName "self") "clearance_size"); (EAttr (EName "self") "hill_mode"); (EAttr (EName "self") "fog_visibility"); (EAttr (EName "self") "terrain_restriction"); (EAttr (EName "self") "fly_mode"); (EAttr (EName "self") "resource_capacity"); (EAttr (EName "self") "resource_decay"); (EAttr (EName "self") "blast_defense_level"); (EAttr (EName "self") "combat_level"); (EAttr (EName "self") "interaction_mode"); (EAttr (EName "self") "minimap_mode"); (EAttr (EName "self") "interface_kind"); (EAttr (EName "self") "multiple_attribute_mode"); (EAttr (EName "self") "minimap_color"); (EAttr (EName "self") "language_dll_help"); (EAttr (EName "self") "language_dll_hotkey_text"); (EAttr (EName "self") "hot_key"); (EAttr (EName "self") "recyclable"); (EAttr (EName "self") "enable_auto_gather"); (EAttr (EName "self") "create_doppelganger_on_death"); (EAttr (EName "self") "resource_gather_group"); (EAttr (EName "self") "occlusion_mode"); (EAttr (EName "self") "obstruction_type"); (EAttr (EName "self") "obstruction_class"); (EAttr (EName "self") "trait"); (EAttr (EName "self") "civilization"); (EAttr (EName "self") "nothing"); (EAttr (EName "self") "selection_effect"); (EAttr (EName "self") "editor_selection_colour"); (EAttr (EName "self") "outline_size_x"); (EAttr (EName "self") "outline_size_y"); (EAttr (EName "self") "outline_size_z"); (EAttr (EName "self") "scenario_triggers_1"); (EAttr (EName "self") "scenario_triggers_2")]) (ECall (EAttr (EConst (KBytes [])) "join") [(EList [(ECall (EAttr (EName "self") "write_class_array") [(EAttr (EName "self") "resource_storages"); (EName "version")]); (ECall (EAttr (EName "self") "write_int_8") [(ECall (EName "len") [(EAttr (EName "self") "damage_graphics")])]); (ECall (EAttr (EName "self") "write_class_array") [(EAttr (EName "self") "damage_graphics"); (EName "version")]); (ECall (EAttr (EName "self") "write_int_16") [(EAttr (EName "self") "selection_sound")]); (ECall (EAttr (EName "self") "write_int_16") [(EAttr (EName "self") "dying_sound")]); (ECall (EAttr (EName "self") "write_int_32") [(EAttr (EName "self") "wwise_train_sound_id")]); (ECall (EAttr (EName "self") "write_int_32") [(EAttr (EName "self") "wwise_damage_sound_id")]); (ECall (EAttr (EName "self") "write_int_32") [(EAttr (EName "self") "wwise_selection_sound_id")]); (ECall (EAttr (EName "self") "write_int_32") [(EAttr (EName "self") "wwise_dying_sound_id")]); (ECall (EAttr (EName "self") "write_int_8") [(EAttr (EName "self") "old_attack_reaction")]); (ECall (EAttr (EName "self") "write_int_8") [(EAttr (EName "self") "convert_terrain")]); (ECall (EAttr (EName "self") "write_debug_string") [(EAttr (EName "self") "name")]); (ECall (EAttr (EName "self") "write_int_16") [(EAttr (EName "self") "copy_id")]); (ECall (EAttr (EName "self") "write_int_16") [(EAttr (EName "self") "base_id")]); (EName "speed"); (EName "dead_fish"); (EName "bird"); (EName "type_50"); (EName "projectile"); (EName "creatable"); (EName "building")])]))].
(** unit.py:1637-1744 Unit.to_bytes_88 *)
Definition src_Unit_to_bytes_88 : func := mkFunc Method "unit" ["self"; "version"] [] [
  SAssign "speed" (EConst (KBytes []));
  SAssign "dead_fish" (EConst (KBytes []));
  SAssign "bird" (EConst (KBytes []));
  SAssign "type_50" (EConst (KBytes []));
  SAssign "projectile" (EConst (KBytes []));
  SAssign "creatable" (EConst (KBytes []));
  SAssign "building" (EConst (KBytes []));
  SIf (ECmp CNe (EAttr (EName "self") "type") (EAttr (EName "UnitType") "AoeTrees")) [
    SIf (ECmp CGe (EAttr (EName "self") "type") (EAttr (EName "UnitType") "Flag")) [
      SAssign "speed" (EIf (ECmp CIsNot (EAttr (EName "self") "speed") (EConst KNone)) (ECall (EAttr (EName "self") "write_float") [(EAttr (EName "self") "speed")]) (EConst (KBytes [])));
      SIf (ECmp CGe (EAttr (EName "self") "type") (EAttr (EName "UnitType") "DeadFish")) [
        SAssign "dead_fish" (EIf (ECmp CIsNot (EAttr (EName "self") "dead_fish") (EConst KNone)) (ECall (EAttr (EName "self") "write_class") [(EAttr (EName "self") "dead_fish"); (EName "version")]) (EConst (KBytes [])))] [];
      SIf (ECmp CGe (EAttr (EName "self") "type") (EAttr (EName "UnitType") "Bird")) [
        SAssign "bird" (EIf (ECmp CIsNot (EAttr (EName "self") "bird") (EConst KNone)) (ECall (EAttr (EName "self") "write_class") [(EAttr (EName "self") "bird"); (EName "version")]) (EConst (KBytes [])))] [];
      SIf (ECmp CGe (EAttr (EName "self") "type") (EAttr (EName "UnitType") "Combatant")) [
        SAssign "type_50" (EIf (ECmp CIsNot (EAttr (EName "self") "type_50") (EConst KNone)) (ECall (EAttr (EName "self") "write_class") [(EAttr (EName "self") "type_50"); (EName "version")]) (EConst (KBytes [])))] [];
      SIf (ECmp CEq (EAttr (EName "self") "type") (EAttr (EName "UnitType") "Projectile")) [
        SAssign "projectile" (EIf (ECmp CIsNot (EAttr (EName "self") "projectile") (EConst KNone)) (ECall (EAttr (EName "self") "write_class") [(EAttr (EName "self") "projectile"); (EName "version")]) (EConst (KBytes [])))] [];
      SIf (ECmp CGe (EAttr (EName "self") "type") (EAttr (EName "UnitType") "Creatable")) [
        SAssign "creatable" (EIf (ECmp CIsNot (EAttr (EName "self") "creatable") (EConst KNone)) (ECall (EAttr (EName "self") "write_class") [(EAttr (EName "self") "creatable"); (EName "version")]) (EConst (KBytes [])))] [];
      SIf (ECmp CEq (EAttr (EName "self") "type") (EAttr (EName "UnitType") "Building")) [
        SAssign "building" (EIf (ECmp CIsNot (EAttr (EName "self") "building") (EConst KNone)) (ECall (EAttr (EName "self") "write_class") [(EAttr (EName "self") "building"); (EName "version")]) (EConst (KBytes [])))] []] []] [];
  SReturn (EBin BAdd (ECall (EAttr (EName "struct") "pack") [(EName "FORMAT_88"); (EAttr (EName "self") "type"); (EAttr (EName "self") "id"); (EAttr (EName "self") "language_dll_name"); (EAttr (EName "self") "language_dll_creation"); (EAttr (EName "self") "class_"); EStar (EAttr (EName "self") "standing_graphic"); (EAttr (EName "self") "dying_graphic"); (EAttr (EName "self") "undead_graphic"); (EAttr (EName "self") "undead_mode"); (EAttr (EName "self") "hit_points"); (EAttr (EName "self") "line_of_sight"); (EAttr (EName "self") "garrison_capacity"); (EAttr (EName "self") "collision_size_x"); (EAttr (EName "self") "collision_size_y"); (EAttr (EName "self") "collision_size_z"); (EAttr (EName "self") "train_sound"); (EAttr (EName "self") "damage_sound"); (EAttr (EName "self") "dead_unit_id"); (EAttr (EName "self") "blood_unit_id"); (EAttr (EName "self") "sort_number"); (EAttr (EName "self") "can_be_built_on"); (EAttr (EName "self") "icon_id"); (EAttr (EName "self") "hide_in_editor"); (EAttr (EName "self") "old_portrait_pict"); (EAttr (EName "self") "enabled"); (EAttr (EName "self") "disabled"); EStar (EAttr (EName "self") "placement_side_terrain"); EStar (EAttr (EName "self") "placement_terrain"); EStar (EAttr (EName "self") "clearance_size"); (EAttr (EName "self") "hill_mode"); (EAttr (EName "self") "fog_visibility"); (EAttr (EName "self") "terrain_restriction"); (EAttr (EName "self") "fly_mode"); (EAttr (EName "self") "resource_capacity"); (EAttr (EName "self") "resource_decay"); (EAttr (EName "self") "blast_defense_level"); (EAttr (EName "self") "combat_level"); (EAttr (EName "self") "interaction_mode"); (EAttr (EName "self") "minimap_mode"); (EAttr (EName "self") "interface_kind"); (EAttr (EName "self") "multiple_attribute_mode"); (EAttr (EName "self") "minimap_color"); (EAttr (EName "self") "language_dll_help"); (EAttr (EName "self") "language_dll_hotkey_text"); (EAttr (EName "self") "recyclable"); (EAttr (EName "self") "enable_auto_gather"); (EAttr (EName "self") "create_doppelganger_on_death"); (EAttr (EName "self") "resource_gather_group"); (EAttr (EName "self") "occlusion_mode"); (EAttr (EName "self") "obstruction_type"); (EAttr (EName "self") "obstruction_class"); (EAttr (EName "self") "trait"); (EAttr (EName "self") "civilization"); (EAttr (EName "self") "nothing"); (EAttr (EName "self") "selection_effect"); (EAttr (EName "self") "editor_selection_colour"); (EAttr (EName "self") "outline_size_x"); (EAttr (EName "self") "outline_size_y"); (EAttr (EName "self") "outline_size_z"); (EAttr (EName "self") "scenario_triggers_1"); (EAttr (EName "self") "scenario_triggers_2")]) (ECall (EAttr (EConst (KBytes [])) "join") [(EList [(ECall (EAttr (EName "self") "write_class_array") [(EAttr (EName "self") "resource_storages"); (EName "version")]); (ECall (EAttr (EName "self") "write_int_8") [(ECall (EName "len") [(EAttr (EName "self") "damage_graphics")])]); (ECall (EAttr (EName "self") "write_class_array") [(EAttr (EName "self") "damage_graphics"); (EName "version")]); (ECall (EAttr (EName "self") "write_int_16") [(EAttr (EName "self") "selection_sound")]); (ECall (EAttr (EName "self") "write_int_16") [(EAttr (EName "self") "dying_sound")]); (ECall (EAttr (EName "self") "write_int_32") [(EAttr (EName "self") "wwise_train_sound_id")]); (ECall (EAttr (EName "self") "write_int_32") [(EAttr (EName "self") "wwise_damage_sound_id")]); (ECall (EAttr (EName "self") "write_int_32") [(EAttr (EName "self") "wwise_selection_sound_id")]); (ECall (EAttr (EName "self") "write_int_32") [(EAttr (EName "self") "wwise_dying_sound_id")]); (ECall (EAttr (EName "self") "write_int_8") [(EAttr (EName "self") "old_attack_reaction")]); (ECall (EAttr (EName "self") "write_int_8") [(EAttr (EName "self") "convert_terrain")]); (ECall (EAttr (EName "self") "write_debug_string") [(EAttr (EName "self") "name")]); (ECall (EAttr (EName "self") "write_int_16") [(EAttr (EName "self") "copy_id")]); (ECall (EAttr (EName "self") "write_int_16") [(EAttr (EName "self") "base_id")]); (EName "speed"); (EName "dead_fish"); (EName "bird"); (EName "type_50"); (EName "projectile"); (EName "creatable"); (EName "building")])]))].
(** unit.py:1051 class Unit *)
Definition src_Unit : class := mkClass Dataclass ["GenieClass"]
  ["type"; "id"; "language_dll_name"; "language_dll_creation"; "class_"; "standing_graphic"; "dying_graphic"; "undead_graphic"; "undead_mode"; "hit_points"; "line_of_sight"; "garrison_capacity"; "collision_size_x"; "collision_size_y"; "collision_size_z"; "train_sound"; "damage_sound"; "dead_unit_id"; "blood_unit_id"; "sort_number"; "can_be_built_on"; "icon_id"; "hide_in_editor"; "old_portrait_pict"; "enabled"; "disabled"; "placement_side_terrain"; "placement_terrain"; "clearance_size"; "hill_mode"; "fog_visibility"; "terrain_restriction"; "fly_mode"; "resource_capacity"; "resource_decay"; "blast_defense_level"; "combat_level"; "interaction_mode"; "minimap_mode"; "interface_kind"; "multiple_attribute_mode"; "minimap_color"; "language_dll_help"; "language_dll_hotkey_text"; "hot_key"; "recyclable"; "enable_auto_gather"; "create_doppelganger_on_death"; "resource_gather_group"; "occlusion_mode"; "obstruction_type"; "obstruction_class"; "trait"; "civilization"; "nothing"; "selection_effect"; "editor_selection_colour"; "outline_size_x"; "outline_size_y"; "outline_size_z"; "scenario_triggers_1"; "scenario_triggers_2"; "resource_storages"; "damage_graphics"; "selection_sound"; "dying_sound"; "wwise_train_sound_id"; "wwise_damage_sound_id"; "wwise_selection_sound_id"; "wwise_dying_sound_id"; "old_attack_reaction"; "convert_terrain"; "name"; "copy_id"; "base_id"; "speed"; "dead_fish"; "bird"; "type_50"; "projectile"; "creatable"; "building"]
  [("speed", KNone); ("dead_fish", KNone); ("bird", KNone); ("type_50", KNone); ("projectile", KNone); ("creatable", KNone); ("building", KNone)]
  []
  [("from_bytes", src_Unit_from_bytes); ("from_bytes_84", src_Unit_from_bytes_84); ("from_bytes_88", src_Unit_from_bytes_88); ("to_bytes", src_Unit_to_bytes); ("to_bytes_84", src_Unit_to_bytes_84); ("to_bytes_88", src_Unit_to_bytes_88)].

(** civ.py:19-38 Civ.from_bytes *)
Definition src_Civ_from_bytes : func := mkFunc ClassMethod "civ" ["cls"; "content"] [] [
  SAssign "player_type" (ECall (EAttr (EName "content") "read_int_8") []);
  SAssign "name" (ECall (EAttr (EName "content") "read_debug_string") []);
  SAssign "resources_size" (ECall (EAttr (EName "content") "read_int_16") []);
  SAssign "tech_tree_id" (ECall (EAttr (EName "content") "read_int_16") []);
  SAssign "team_bonus_id" (ECall (EAttr (EName "content") "read_int_16") []);
  SAssign "resources" (ECall (EAttr (EName "content") "read_float_array") [(EName "resources_size")]);
  SAssign "icon_set" (ECall (EAttr (EName "content") "read_int_8") []);
  SAssign "units_size" (ECall (EAttr (EName "content") "read_int_16") []);
  SAssign "unit_pointers" (ECall (EAttr (EName "content") "read_int_32_array") [(EName "units_size")]);
  SAssign "units" (ECall (EAttr (EName "content") "read_class_array_with_pointers") [(EName "Unit"); (EName "units_size"); (EName "unit_pointers")]);
  SReturn (ECall (EName "cls") [EKw "player_type" (EName "player_type"); EKw "name" (EName "name"); EKw "tech_tree_id" (EName "tech_tree_id"); EKw "team_bonus_id" (EName "team_bonus_id"); EKw "resources" (EName "resources"); EKw "icon_set" (EName "icon_set"); EKw "units" (EName "units")])].
(** civ.py:41-42 Civ.unit_pointers *)
Definition src_Civ_unit_pointers : func := mkFunc Property "civ" ["self"] [] [
  SReturn (EFor (EIf (ECmp CIs (EName "u") (EConst KNone)) (EConst (KInt 0)) (EConst (KInt 1))) "u" (EAttr (EName "self") "units") None)].
(** civ.py:44-56 Civ.to_bytes *)
Definition src_Civ_to_bytes : func := mkFunc Method "civ" ["self"; "version"] [] [
  SReturn (ECall (EAttr (EConst (KBytes [])) "join") [(EList [(ECall (EAttr (EName "self") "write_int_8") [(EAttr (EName "self") "player_type")]); (ECall (EAttr (EName "self") "write_debug_string") [(EAttr (EName "self") "name")]); (ECall (EAttr (EName "self") "write_int_16") [(ECall (EName "len") [(EAttr (EName "self") "resources")])]); (ECall (EAttr (EName "self") "write_int_16") [(EAttr (EName "self") "tech_tree_id")]); (ECall (EAttr (EName "self") "write_int_16") [(EAttr (EName "self") "team_bonus_id")]); (ECall (EAttr (EName "self") "write_float_array") [(EAttr (EName "self") "resources")]); (ECall (EAttr (EName "self") "write_int_8") [(EAttr (EName "self") "icon_set")]); (ECall (EAttr (EName "self") "write_int_16") [(ECall (EName "len") [(EAttr (EName "self") "units")])]); (ECall (EAttr (EName "self") "write_int_32_array") [(EAttr (EName "self") "unit_pointers")]); (ECall (EAttr (EName "self") "write_class_array") [(EAttr (EName "self") "units"); (EName "version")])])])].
(** civ.py:9 class Civ *)
Definition src_Civ : class := mkClass Dataclass ["GenieClass"]
  ["player_type"; "name"; "tech_tree_id"; "team_bonus_id"; "resources"; "icon_set"; "units"]
  []
  []
  [("from_bytes", src_Civ_from_bytes); ("unit_pointers", src_Civ_unit_pointers); ("to_bytes", src_Civ_to_bytes)].

(** tech.py:14-19 ResearchResourceCost.from_bytes *)
Definition src_ResearchResourceCost_from_bytes : func := mkFunc ClassMethod "tech" ["cls"; "content"] [] [
  SReturn (ECall (EName "cls") [EKw "type" (ECall (EAttr (EName "content") "read_int_16") []); EKw "amount" (ECall (EAttr (EName "content") "read_int_16") []); EKw "flag" (ECall (EAttr (EName "content") "read_int_8") [])])].
(** tech.py:21-26 ResearchResourceCost.to_bytes *)
Definition src_ResearchResourceCost_to_bytes : func := mkFunc Method "tech" ["self"; "version"] [] [
  SReturn (ECall (EAttr (EConst (KBytes [])) "join") [(EList [(ECall (EAttr (EName "self") "write_int_16") [(EAttr (EName "self") "type")]); (ECall (EAttr (EName "self") "write_int_16") [(EAttr (EName "self") "amount")]); (ECall (EAttr (EName "self") "write_int_8") [(EAttr (EName "self") "flag")])])])].
(** tech.py:8 class ResearchResourceCost *)
Definition src_ResearchResourceCost : class := mkClass Dataclass ["GenieClass"]
  ["type"; "amount"; "flag"]
  []
  []
  [("from_bytes", src_ResearchResourceCost_from_bytes); ("to_bytes", src_ResearchResourceCost_to_bytes)].

(** tech.py:37-43 ResearchLocation.from_bytes *)
Definition src_ResearchLocation_from_bytes : func := mkFunc ClassMethod "tech" ["cls"; "content"] [] [
  SReturn (ECall (EName "cls") [EKw "location_id" (ECall (EAttr (EName "content") "read_int_16") []); EKw "research_time" (ECall (EAttr (EName "content") "read_int_16") []); EKw "button_id" (ECall (EAttr (EName "content") "read_int_8") []); EKw "hot_key_id" (ECall (EAttr (EName "content") "read_int_32") [])])].
(** tech.py:45-51 ResearchLocation.to_bytes *)
Definition src_ResearchLocation_to_bytes : func := mkFunc Method "tech" ["self"; "version"] [] [
  SReturn (ECall (EAttr (EConst (KBytes [])) "join") [(EList [(ECall (EAttr (EName "self") "write_int_16") [(EAttr (EName "self") "location_id")]); (ECall (EAttr (EName "self") "write_int_16") [(EAttr (EName "self") "research_time")]); (ECall (EAttr (EName "self") "write_int_8") [(EAttr (EName "self") "button_id")]); (ECall (EAttr (EName "self") "write_int_32") [(EAttr (EName "self") "hot_key_id")])])])].
(** tech.py:30 class ResearchLocation *)
Definition src_ResearchLocation : class := mkClass Dataclass ["GenieClass"]
  ["location_id"; "research_time"; "button_id"; "hot_key_id"]
  []
  []
  [("from_bytes", src_ResearchLocation_from_bytes); ("to_bytes", src_ResearchLocation_to_bytes)].

(** tech.py:73-76 Tech.from_bytes *)
Definition src_Tech_from_bytes : func := mkFunc ClassMethod "tech" ["cls"; "content"] [] [
  SIf (ECmp CGe (EAttr (EName "content") "version") (EAttr (EName "Version") "VER_88")) [
    SReturn (ECall (EAttr (EName "cls") "from_bytes_88") [(EName "content")])] [];
  SReturn (ECall (EAttr (EName "cls") "from_bytes_84") [(EName "content")])].
(** tech.py:79-120 Tech.from_bytes_84 *)
Definition src_Tech_from_bytes_84 : func := mkFunc ClassMethod "tech" ["cls"; "content"] [] [
  SAssign "required_techs" (ECall (EAttr (EName "content") "read_int_16_array_6") []);
  SAssign "resource_costs" (ECall (EAttr (EName "content") "read_class_array_3") [(EName "ResearchResourceCost")]);
  SAssign "required_tech_count" (ECall (EAttr (EName "content") "read_int_16") []);
  SAssign "civ" (ECall (EAttr (EName "content") "read_int_16") []);
  SAssign "full_tech_mode" (ECall (EAttr (EName "content") "read_int_16") []);
  SAssign "research_location" (ECall (EAttr (EName "content") "read_int_16") []);
  SAssign "language_dll_name" (ECall (EAttr (EName "content") "read_int_32") []);
  SAssign "language_dll_description" (ECall (EAttr (EName "content") "read_int_32") []);
  SAssign "research_time" (ECall (EAttr (EName "content") "read_int_16") []);
  SAssign "effect_id" (ECall (EAttr (EName "content") "read_int_16") []);
  SAssign "type" (ECall (EAttr (EName "content") "read_int_16") []);
  SAssign "icon_id" (ECall (EAttr (EName "content") "read_int_16") []);
  SAssign "button_id" (ECall (EAttr (EName "content") "read_int_8") []);
  SAssign "language_dll_help" (ECall (EAttr (EName "content") "read_int_32") []);
  SAssign "language_dll_tech_tree" (ECall (EAttr (EName "content") "read_int_32") []);
  SAssign "hot_key" (ECall (EAttr (EName "content") "read_int_32") []);
  SAssign "name" (ECall (EAttr (EName "content") "read_debug_string") []);
  SAssign "repeatable" (ECall (EAttr (EName "content") "read_int_8") []);
  SAssign "research_locations" (EList [(ECall (EName "ResearchLocation") [EKw "button_id" (EName "button_id"); EKw "research_time" (EName "research_time"); EKw "hot_key_id" (EName "hot_key"); EKw "location_id" (EName "research_location")])]);
  SReturn (ECall (EName "cls") [EKw "required_techs" (EName "required_techs"); EKw "resource_costs" (EName "resource_costs"); EKw "required_tech_count" (EName "required_tech_count"); EKw "civ" (EName "civ"); EKw "full_tech_mode" (EName "full_tech_mode"); EKw "language_dll_name" (EName "language_dll_name"); EKw "language_dll_description" (EName "language_dll_description"); EKw "effect_id" (EName "effect_id"); EKw "type" (EName "type"); EKw "icon_id" (EName "icon_id"); EKw "language_dll_help" (EName "language_dll_help"); EKw "language_dll_tech_tree" (EName "language_dll_tech_tree"); EKw "name" (EName "name"); EKw "repeatable" (EName "repeatable"); EKw "research_locations" (EName "research_locations")])].
(** tech.py:123-156 Tech.from_bytes_88 *)
Definition src_Tech_from_bytes_88 : func := mkFunc ClassMethod "tech" ["cls"; "content"] [] [
  SAssign "required_techs" (ECall (EAttr (EName "content") "read_int_16_array_6") []);
  SAssign "resource_costs" (ECall (EAttr (EName "content") "read_class_array_3") [(EName "ResearchResourceCost")]);
  SAssign "required_tech_count" (ECall (EAttr (EName "content") "read_int_16") []);
  SAssign "civ" (ECall (EAttr (EName "content") "read_int_16") []);
  SAssign "full_tech_mode" (ECall (EAttr (EName "content") "read_int_16") []);
  SAssign "language_dll_name" (ECall (EAttr (EName "content") "read_int_32") []);
  SAssign "language_dll_description" (ECall (EAttr (EName "content") "read_int_32") []);
  SAssign "effect_id" (ECall (EAttr (EName "content") "read_int_16") []);
  SAssign "type" (ECall (EAttr (EName "content") "read_int_16") []);
  SAssign "icon_id" (ECall (EAttr (EName "content") "read_int_16") []);
  SAssign "language_dll_help" (ECall (EAttr (EName "content") "read_int_32") []);
  SAssign "language_dll_tech_tree" (ECall (EAttr (EName "content") "read_int_32") []);
  SAssign "name" (ECall (EAttr (EName "content") "read_debug_string") []);
  SAssign "repeatable" (ECall (EAttr (EName "content") "read_int_8") []);
  SAssign "research_location_count" (ECall (EAttr (EName "content") "read_int_16") []);
  SAssign "research_locations" (ECall (EAttr (EName "content") "read_class_array") [(EName "ResearchLocation"); (EName "research_location_count")]);
  SReturn (ECall (EName "cls") [EKw "required_techs" (EName "required_techs"); EKw "resource_costs" (EName "resource_costs"); EKw "required_tech_count" (EName "required_tech_count"); EKw "civ" (EName "civ"); EKw "full_tech_mode" (EName "full_tech_mode"); EKw "language_dll_name" (EName "language_dll_name"); EKw "language_dll_description" (EName "language_dll_description"); EKw "effect_id" (EName "effect_id"); EKw "type" (EName "type"); EKw "icon_id" (EName "icon_id"); EKw "language_dll_help" (EName "language_dll_help"); EKw "language_dll_tech_tree" (EName "language_dll_tech_tree"); EKw "name" (EName "name"); EKw "repeatable" (EName "repeatable"); EKw "research_locations" (EName "research_locations")])].
(** tech.py:158-161 Tech.to_bytes *)
Definition src_Tech_to_bytes : func := mkFunc Method "tech" ["self"; "version"] [] [
  SIf (ECmp CGe (EName "version") (EAttr (EName "Version") "VER_88")) [
    SReturn (ECall (EAttr (EName "self") "to_bytes_88") [(EName "version")])] [];
  SReturn (ECall (EAttr (EName "self") "to_bytes_84") [(EName "version")])].
(** tech.py:162-191 Tech.to_bytes_84 *)
Definition src_Tech_to_bytes_84 : func := mkFunc Method "tech" ["self"; "version"] [] [
  SAssign "research_location" (ENeg (EConst (KInt 1)));
  SAssign "research_time" (EConst (KInt 0));
  SAssign "button_id" (EConst (KInt 0));
  SAssign "hot_key" (ENeg (EConst (KInt 1)));
  SIf (ECall (EName "len") [(EAttr (EName "self") "research_locations")]) [
    SAssign "research_location" (EAttr (EIndex (EAttr (EName "self") "research_locations") (EConst (KInt 0))) "location_id");
    SAssign "research_time" (EAttr (EIndex (EAttr (EName "self") "research_locations") (EConst (KInt 0))) "research_time");
    SAssign "button_id" (EAttr (EIndex (EAttr (EName "self") "research_locations") (EConst (KInt 0))) "button_id");
    SAssign "hot_key" (EAttr (EIndex (EAttr (EName "self") "research_locations") (EConst (KInt 0))) "hot_key_id")] [];
  SReturn (ECall (EAttr (EConst (KBytes [])) "join") [(EList [(ECall (EAttr (EName "self") "write_int_16_array") [(EAttr (EName "self") "required_techs")]); (ECall (EAttr (EName "self") "write_class_array") [(EAttr (EName "self") "resource_costs"); (EName "version")]); (ECall (EAttr (EName "self") "write_int_16") [(EAttr (EName "self") "required_tech_count")]); (ECall (EAttr (EName "self") "write_int_16") [(EAttr (EName "self") "civ")]); (ECall (EAttr (EName "self") "write_int_16") [(EAttr (EName "self") "full_tech_mode")]); (ECall (EAttr (EName "self") "write_int_16") [(EName "research_location")]); (ECall (EAttr (EName "self") "write_int_32") [(EAttr (EName "self") "language_dll_name")]); (ECall (EAttr (EName "self") "write_int_32") [(EAttr (EName "self") "language_dll_description")]); (ECall (EAttr (EName "self") "write_int_16") [(EName "research_time")]); (ECall (EAttr (EName "self") "write_int_16") [(EAttr (EName "self") "effect_id")]); (ECall (EAttr (EName "self") "write_int_16") [(EAttr (EName "self") "type")]); (ECall (EAttr (EName "self") "write_int_16") [(EAttr (EName "self") "icon_id")]); (ECall (EAttr (EName "self") "write_int_8") [(EName "button_id")]); (ECall (EAttr (EName "self") "write_int_32") [(EAttr (EName "self") "language_dll_help")]); (ECall (EAttr (EName "self") "write_int_32") [(EAttr (EName "self") "language_dll_tech_tree")]); (ECall (EAttr (EName "self") "write_int_32") [(EName "hot_key")]); (ECall (EAttr (EName "self") "write_debug_string") [(EAttr (EName "self") "name")]); (ECall (EAttr (EName "self") "write_int_8") [(EAttr (EName "self") "repeatable")])])])].
(** tech.py:193-211 Tech.to_bytes_88 *)
Definition src_Tech_to_bytes_88 : func := mkFunc Method "tech" ["self"; "version"] [] [
  SReturn (ECall (EAttr (EConst (KBytes [])) "join") [(EList [(ECall (EAttr (EName "self") "write_int_16_array") [(EAttr (EName "self") "required_techs")]); (ECall (EAttr (EName "self") "write_class_array") [(EAttr (EName "self") "resource_costs"); (EName "version")]); (ECall (EAttr (EName "self") "write_int_16") [(EAttr (EName "self") "required_tech_count")]); (ECall (EAttr (EName "self") "write_int_16") [(EAttr (EName "self") "civ")]); (ECall (EAttr (EName "self") "write_int_16") [(EAttr (EName "self") "full_tech_mode")]); (ECall (EAttr (EName "self") "write_int_32") [(EAttr (EName "self") "language_dll_name")]); (ECall (EAttr (EName "self") "write_int_32") [(EAttr (EName "self") "language_dll_description")]); (ECall (EAttr (EName "self") "write_int_16") [(EAttr (EName "self") "effect_id")]); (ECall (EAttr (EName "self") "write_int_16") [(EAttr (EName "self") "type")]); (ECall (EAttr (EName "self") "write_int_16") [(EAttr (EName "self") "icon_id")]); (ECall (EAttr (EName "self") "write_int_32") [(EAttr (EName "self") "language_dll_help")]); (ECall (EAttr (EName "self") "write_int_32") [(EAttr (EName "self") "language_dll_tech_tree")]); (ECall (EAttr (EName "self") "write_debug_string") [(EAttr (EName "self") "name")]); (ECall (EAttr (EName "self") "write_int_8") [(EAttr (EName "self") "repeatable")]); (ECall (EAttr (EName "self") "write_int_16") [(ECall (EName "len") [(EAttr (EName "self") "research_locations")])]); (ECall (EAttr (EName "self") "write_class_array") [(EAttr (EName "self") "research_locations"); (EName "version")])])])].
(** tech.py:55 class Tech *)
Definition src_Tech : class := mkClass Dataclass ["GenieClass"]
  ["required_techs"; "resource_costs"; "required_tech_count"; "civ"; "full_tech_mode"; "language_dll_name"; "language_dll_description"; "effect_id"; "type"; "icon_id"; "language_dll_help"; "language_dll_tech_tree"; "name"; "repeatable"; "research_locations"]
  []
  []
  [("from_bytes", src_Tech_from_bytes); ("from_bytes_84", src_Tech_from_bytes_84); ("from_bytes_88", src_Tech_from_bytes_88); ("to_bytes", src_Tech_to_bytes); ("to_bytes_84", src_Tech_to_bytes_84); ("to_bytes_88", src_Tech_to_bytes_88)].

(** techtree.py:14-19 Common.from_bytes *)
Definition src_Common_from_bytes : func := mkFunc ClassMethod "techtree" ["cls"; "content"] [] [
  SReturn (ECall (EName "cls") [EKw "slots_used" (ECall (EAttr (EName "content") "read_int_32") []); EKw "unit_research" (ECall (EAttr (EName "content") "read_int_32_array_10") []); EKw "mode" (ECall (EAttr (EName "content") "read_int_32_array_10") [])])].
(** techtree.py:21-26 Common.to_bytes *)
Definition src_Common_to_bytes : func := mkFunc Method "techtree" ["self"; "version"] [] [
  SReturn (ECall (EAttr (EConst (KBytes [])) "join") [(EList [(ECall (EAttr (EName "self") "write_int_32") [(EAttr (EName "self") "slots_used")]); (ECall (EAttr (EName "self") "write_int_32_array") [(EAttr (EName "self") "unit_research")]); (ECall (EAttr (EName "self") "write_int_32_array") [(EAttr (EName "self") "mode")])])])].
(** techtree.py:8 class Common *)
Definition src_Common : class := mkClass Dataclass ["GenieClass"]
  ["slots_used"; "unit_research"; "mode"]
  []
  []
  [("from_bytes", src_Common_from_bytes); ("to_bytes", src_Common_to_bytes)].

(** techtree.py:44-71 TechTreeAge.from_bytes *)
Definition src_TechTreeAge_from_bytes : func := mkFunc ClassMethod "techtree" ["cls"; "content"] [] [
  SAssign "id_" (ECall (EAttr (EName "content") "read_int_32") []);
  SAssign "status" (ECall (EAttr (EName "content") "read_int_8") []);
  SAssign "buildings_count" (ECall (EAttr (EName "content") "read_int_8") []);
  SAssign "buildings" (ECall (EAttr (EName "content") "read_int_32_array") [(EName "buildings_count")]);
  SAssign "units_count" (ECall (EAttr (EName "content") "read_int_8") []);
  SAssign "units" (ECall (EAttr (EName "content") "read_int_32_array") [(EName "units_count")]);
  SAssign "techs_count" (ECall (EAttr (EName "content") "read_int_8") []);
  SAssign "techs" (ECall (EAttr (EName "content") "read_int_32_array") [(EName "techs_count")]);
  SAssign "common" (ECall (EAttr (EName "content") "read_class") [(EName "Common")]);
  SAssign "num_building_levels" (ECall (EAttr (EName "content") "read_int_8") []);
  SAssign "buildings_per_zone" (ECall (EAttr (EName "content") "read_int_8_array_10") []);
  SAssign "group_length_per_zone" (ECall (EAttr (EName "content") "read_int_8_array_10") []);
  SAssign "max_age_length" (ECall (EAttr (EName "content") "read_int_8") []);
  SAssign "line_mode" (ECall (EAttr (EName "content") "read_int_32") []);
  SReturn (ECall (EName "cls") [EKw "id" (EName "id_"); EKw "status" (EName "status"); EKw "buildings" (EName "buildings"); EKw "units" (EName "units"); EKw "techs" (EName "techs"); EKw "common" (EName "common"); EKw "num_building_levels" (EName "num_building_levels"); EKw "buildings_per_zone" (EName "buildings_per_zone"); EKw "group_length_per_zone" (EName "group_length_per_zone"); EKw "max_age_length" (EName "max_age_length"); EKw "line_mode" (EName "line_mode")])].
(** techtree.py:73-89 TechTreeAge.to_bytes *)
Definition src_TechTreeAge_to_bytes : func := mkFunc Method "techtree" ["self"; "version"] [] [
  SReturn (ECall (EAttr (EConst (KBytes [])) "join") [(EList [(ECall (EAttr (EName "self") "write_int_32") [(EAttr (EName "self") "id")]); (ECall (EAttr (EName "self") "write_int_8") [(EAttr (EName "self") "status")]); (ECall (EAttr (EName "self") "write_int_8") [(ECall (EName "len") [(EAttr (EName "self") "buildings")])]); (ECall (EAttr (EName "self") "write_int_32_array") [(EAttr (EName "self") "buildings")]); (ECall (EAttr (EName "self") "write_int_8") [(ECall (EName "len") [(EAttr (EName "self") "units")])]); (ECall (EAttr (EName "self") "write_int_32_array") [(EAttr (EName "self") "units")]); (ECall (EAttr (EName "self") "write_int_8") [(ECall (EName "len") [(EAttr (EName "self") "techs")])]); (ECall (EAttr (EName "self") "write_int_32_array") [(EAttr (EName "self") "techs")]); (ECall (EAttr (EName "self") "write_class") [(EAttr (EName "self") "common"); (EName "version")]); (ECall (EAttr (EName "self") "write_int_8") [(EAttr (EName "self") "num_building_levels")]); (ECall (EAttr (EName "self") "write_int_8_array") [(EAttr (EName "self") "buildings_per_zone")]); (ECall (EAttr (EName "self") "write_int_8_array") [(EAttr (EName "self") "group_length_per_zone")]); (ECall (EAttr (EName "self") "write_int_8") [(EAttr (EName "self") "max_age_length")]); (ECall (EAttr (EName "self") "write_int_32") [(EAttr (EName "self") "line_mode")])])])].
(** techtree.py:30 class TechTreeAge *)
Definition src_TechTreeAge : class := mkClass Dataclass ["GenieClass"]
  ["id"; "status"; "buildings"; "units"; "techs"; "common"; "num_building_levels"; "buildings_per_zone"; "group_length_per_zone"; "max_age_length"; "line_mode"]
  []
  []
  [("from_bytes", src_TechTreeAge_from_bytes); ("to_bytes", src_TechTreeAge_to_bytes)].

(** techtree.py:107-134 BuildingConnection.from_bytes *)
Definition src_BuildingConnection_from_bytes : func := mkFunc ClassMethod "techtree" ["cls"; "content"] [] [
  SAssign "id_" (ECall (EAttr (EName "content") "read_int_32") []);
  SAssign "status" (ECall (EAttr (EName "content") "read_int_8") []);
  SAssign "buildings_count" (ECall (EAttr (EName "content") "read_int_8") []);
  SAssign "buildings" (ECall (EAttr (EName "content") "read_int_32_array") [(EName "buildings_count")]);
  SAssign "units_count" (ECall (EAttr (EName "content") "read_int_8") []);
  SAssign "units" (ECall (EAttr (EName "content") "read_int_32_array") [(EName "units_count")]);
  SAssign "techs_count" (ECall (EAttr (EName "content") "read_int_8") []);
  SAssign "techs" (ECall (EAttr (EName "content") "read_int_32_array") [(EName "techs_count")]);
  SAssign "common" (ECall (EAttr (EName "content") "read_class") [(EName "Common")]);
  SAssign "location_in_age" (ECall (EAttr (EName "content") "read_int_8") []);
  SAssign "units_techs_total" (ECall (EAttr (EName "content") "read_int_8_array_5") []);
  SAssign "units_techs_first" (ECall (EAttr (EName "content") "read_int_8_array_5") []);
  SAssign "line_mode" (ECall (EAttr (EName "content") "read_int_32") []);
  SAssign "enabling_research" (ECall (EAttr (EName "content") "read_int_32") []);
  SReturn (ECall (EName "cls") [EKw "id" (EName "id_"); EKw "status" (EName "status"); EKw "buildings" (EName "buildings"); EKw "units" (EName "units"); EKw "techs" (EName "techs"); EKw "common" (EName "common"); EKw "location_in_age" (EName "location_in_age"); EKw "units_techs_total" (EName "units_techs_total"); EKw "units_techs_first" (EName "units_techs_first"); EKw "line_mode" (EName "line_mode"); EKw "enabling_research" (EName "enabling_research")])].
(** techtree.py:136-152 BuildingConnection.to_bytes *)
Definition src_BuildingConnection_to_bytes : func := mkFunc Method "techtree" ["self"; "version"] [] [
  SReturn (ECall (EAttr (EConst (KBytes [])) "join") [(EList [(ECall (EAttr (EName "self") "write_int_32") [(EAttr (EName "self") "id")]); (ECall (EAttr (EName "self") "write_int_8") [(EAttr (EName "self") "status")]); (ECall (EAttr (EName "self") "write_int_8") [(ECall (EName "len") [(EAttr (EName "self") "buildings")])]); (ECall (EAttr (EName "self") "write_int_32_array") [(EAttr (EName "self") "buildings")]); (ECall (EAttr (EName "self") "write_int_8") [(ECall (EName "len") [(EAttr (EName "self") "units")])]); (ECall (EAttr (EName "self") "write_int_32_array") [(EAttr (EName "self") "units")]); (ECall (EAttr (EName "self") "write_int_8") [(ECall (EName "len") [(EAttr (EName "self") "techs")])]); (ECall (EAttr (EName "self") "write_int_32_array") [(EAttr (EName "self") "techs")]); (ECall (EAttr (EName "self") "write_class") [(EAttr (EName "self") "common"); (EName "version")]); (ECall (EAttr (EName "self") "write_int_8") [(EAttr (EName "self") "location_in_age")]); (ECall (EAttr (EName "self") "write_int_8_array") [(EAttr (EName "self") "units_techs_total")]); (ECall (EAttr (EName "self") "write_int_8_array") [(EAttr (EName "self") "units_techs_first")]); (ECall (EAttr (EName "self") "write_int_32") [(EAttr (EName "self") "line_mode")]); (ECall (EAttr (EName "self") "write_int_32") [(EAttr (EName "self") "enabling_research")])])])].
(** techtree.py:93 class BuildingConnection *)
Definition src_BuildingConnection : class := mkClass Dataclass ["GenieClass"]
  ["id"; "status"; "buildings"; "units"; "techs"; "common"; "location_in_age"; "units_techs_total"; "units_techs_first"; "line_mode"; "enabling_research"]
  []
  []
  [("from_bytes", src_BuildingConnection_from_bytes); ("to_bytes", src_BuildingConnection_to_bytes)].

(** techtree.py:169-192 UnitConnection.from_bytes *)
Definition src_UnitConnection_from_bytes : func := mkFunc ClassMethod "techtree" ["cls"; "content"] [] [
  SAssign "id_" (ECall (EAttr (EName "content") "read_int_32") []);
  SAssign "status" (ECall (EAttr (EName "content") "read_int_8") []);
  SAssign "upper_building" (ECall (EAttr (EName "content") "read_int_32") []);
  SAssign "common" (ECall (EAttr (EName "content") "read_class") [(EName "Common")]);
  SAssign "vertical_line" (ECall (EAttr (EName "content") "read_int_32") []);
  SAssign "units_count" (ECall (EAttr (EName "content") "read_int_8") []);
  SAssign "units" (ECall (EAttr (EName "content") "read_int_32_array") [(EName "units_count")]);
  SAssign "location_in_age" (ECall (EAttr (EName "content") "read_int_32") []);
  SAssign "required_research" (ECall (EAttr (EName "content") "read_int_32") []);
  SAssign "line_mode" (ECall (EAttr (EName "content") "read_int_32") []);
  SAssign "enabling_research" (ECall (EAttr (EName "content") "read_int_32") []);
  SReturn (ECall (EName "cls") [EKw "id" (EName "id_"); EKw "status" (EName "status"); EKw "upper_building" (EName "upper_building"); EKw "common" (EName "common"); EKw "vertical_line" (EName "vertical_line"); EKw "units" (EName "units"); EKw "location_in_age" (EName "location_in_age"); EKw "required_research" (EName "required_research"); EKw "line_mode" (EName "line_mode"); EKw "enabling_research" (EName "enabling_research")])].
(** techtree.py:194-207 UnitConnection.to_bytes *)
Definition src_UnitConnection_to_bytes : func := mkFunc Method "techtree" ["self"; "version"] [] [
  SReturn (ECall (EAttr (EConst (KBytes [])) "join") [(EList [(ECall (EAttr (EName "self") "write_int_32") [(EAttr (EName "self") "id")]); (ECall (EAttr (EName "self") "write_int_8") [(EAttr (EName "self") "status")]); (ECall (EAttr (EName "self") "write_int_32") [(EAttr (EName "self") "upper_building")]); (ECall (EAttr (EName "self") "write_class") [(EAttr (EName "self") "common"); (EName "version")]); (ECall (EAttr (EName "self") "write_int_32") [(EAttr (EName "self") "vertical_line")]); (ECall (EAttr (EName "self") "write_int_8") [(ECall (EName "len") [(EAttr (EName "self") "units")])]); (ECall (EAttr (EName "self") "write_int_32_array") [(EAttr (EName "self") "units")]); (ECall (EAttr (EName "self") "write_int_32") [(EAttr (EName "self") "location_in_age")]); (ECall (EAttr (EName "self") "write_int_32") [(EAttr (EName "self") "required_research")]); (ECall (EAttr (EName "self") "write_int_32") [(EAttr (EName "self") "line_mode")]); (ECall (EAttr (EName "self") "write_int_32") [(EAttr (EName "self") "enabling_research")])])])].
(** techtree.py:156 class UnitConnection *)
Definition src_UnitConnection : class := mkClass Dataclass ["GenieClass"]
  ["id"; "status"; "upper_building"; "common"; "vertical_line"; "units"; "location_in_age"; "required_research"; "line_mode"; "enabling_research"]
  []
  []
  [("from_bytes", src_UnitConnection_from_bytes); ("to_bytes", src_UnitConnection_to_bytes)].

(** techtree.py:224-249 ResearchConnection.from_bytes *)
Definition src_ResearchConnection_from_bytes : func := mkFunc ClassMethod "techtree" ["cls"; "content"] [] [
  SAssign "id_" (ECall (EAttr (EName "content") "read_int_32") []);
  SAssign "status" (ECall (EAttr (EName "content") "read_int_8") []);
  SAssign "upper_building" (ECall (EAttr (EName "content") "read_int_32") []);
  SAssign "buildings_count" (ECall (EAttr (EName "content") "read_int_8") []);
  SAssign "buildings" (ECall (EAttr (EName "content") "read_int_32_array") [(EName "buildings_count")]);
  SAssign "units_count" (ECall (EAttr (EName "content") "read_int_8") []);
  SAssign "units" (ECall (EAttr (EName "content") "read_int_32_array") [(EName "units_count")]);
  SAssign "techs_count" (ECall (EAttr (EName "content") "read_int_8") []);
  SAssign "techs" (ECall (EAttr (EName "content") "read_int_32_array") [(EName "techs_count")]);
  SAssign "common" (ECall (EAttr (EName "content") "read_class") [(EName "Common")]);
  SAssign "vertical_line" (ECall (EAttr (EName "content") "read_int_32") []);
  SAssign "location_in_age" (ECall (EAttr (EName "content") "read_int_32") []);
  SAssign "line_mode" (ECall (EAttr (EName "content") "read_int_32") []);
  SReturn (ECall (EName "cls") [EKw "id" (EName "id_"); EKw "status" (EName "status"); EKw "upper_building" (EName "upper_building"); EKw "buildings" (EName "buildings"); EKw "units" (EName "units"); EKw "techs" (EName "techs"); EKw "common" (EName "common"); EKw "vertical_line" (EName "vertical_line"); EKw "location_in_age" (EName "location_in_age"); EKw "line_mode" (EName "line_mode")])].
(** techtree.py:251-266 ResearchConnection.to_bytes *)
Definition src_ResearchConnection_to_bytes : func := mkFunc Method "techtree" ["self"; "version"] [] [
  SReturn (ECall (EAttr (EConst (KBytes [])) "join") [(EList [(ECall (EAttr (EName "self") "write_int_32") [(EAttr (EName "self") "id")]); (ECall (EAttr (EName "self") "write_int_8") [(EAttr (EName "self") "status")]); (ECall (EAttr (EName "self") "write_int_32") [(EAttr (EName "self") "upper_building")]); (ECall (EAttr (EName "self") "write_int_8") [(ECall (EName "len") [(EAttr (EName "self") "buildings")])]); (ECall (EAttr (EName "self") "write_int_32_array") [(EAttr (EName "self") "buildings")]); (ECall (EAttr (EName "self") "write_int_8") [(ECall (EName "len") [(EAttr (EName "self") "units")])]); (ECall (EAttr (EName "self") "write_int_32_array") [(EAttr (EName "self") "units")]); (ECall (EAttr (EName "self") "write_int_8") [(ECall (EName "len") [(EAttr (EName "self") "techs")])]); (ECall (EAttr (EName "self") "write_int_32_array") [(EAttr (EName "self") "techs")]); (ECall (EAttr (EName "self") "write_class") [(EAttr (EName "self") "common"); (EName "version")]); (ECall (EAttr (EName "self") "write_int_32") [(EAttr (EName "self") "vertical_line")]); (ECall (EAttr (EName "self") "write_int_32") [(EAttr (EName "self") "location_in_age")]); (ECall (EAttr (EName "self") "write_int_32") [(EAttr (EName "self") "line_mode")])])])].
(** techtree.py:211 class ResearchConnection *)
Definition src_ResearchConnection : class := mkClass Dataclass ["GenieClass"]
  ["id"; "status"; "upper_building"; "buildings"; "units"; "techs"; "common"; "vertical_line"; "location_in_age"; "line_mode"]
  []
  []
  [("from_bytes", src_ResearchConnection_from_bytes); ("to_bytes", src_ResearchConnection_to_bytes)].

(** techtree.py:278-294 TechTree.from_bytes *)
Definition src_TechTree_from_bytes : func := mkFunc ClassMethod "techtree" ["cls"; "content"] [] [
  SAssign "age_count" (ECall (EAttr (EName "content") "read_int_8") []);
  SAssign "building_count" (ECall (EAttr (EName "content") "read_int_8") []);
  SAssign "unit_count" (ECall (EAttr (EName "content") "read_int_8") []);
  SAssign "research_count" (ECall (EAttr (EName "content") "read_int_8") []);
  SAssign "total_unit_tech_groups" (ECall (EAttr (EName "content") "read_int_32") []);
  SAssign "tech_tree_ages" (ECall (EAttr (EName "content") "read_class_array") [(EName "TechTreeAge"); (EName "age_count")]);
  SAssign "building_connections" (ECall (EAttr (EName "content") "read_class_array") [(EName "BuildingConnection"); (EName "building_count")]);
  SAssign "unit_connections" (ECall (EAttr (EName "content") "read_class_array") [(EName "UnitConnection"); (EName "unit_count")]);
  SAssign "research_connections" (ECall (EAttr (EName "content") "read_class_array") [(EName "ResearchConnection"); (EName "research_count")]);
  SReturn (ECall (EName "cls") [EKw "total_unit_tech_groups" (EName "total_unit_tech_groups"); EKw "tech_tree_ages" (EName "tech_tree_ages"); EKw "building_connections" (EName "building_connections"); EKw "unit_connections" (EName "unit_connections"); EKw "research_connections" (EName "research_connections")])].
(** techtree.py:296-307 TechTree.to_bytes *)
Definition src_TechTree_to_bytes : func := mkFunc Method "techtree" ["self"; "version"] [] [
  SReturn (ECall (EAttr (EConst (KBytes [])) "join") [(EList [(ECall (EAttr (EName "self") "write_int_8") [(ECall (EName "len") [(EAttr (EName "self") "tech_tree_ages")])]); (ECall (EAttr (EName "self") "write_int_8") [(ECall (EName "len") [(EAttr (EName "self") "building_connections")])]); (ECall (EAttr (EName "self") "write_int_8") [(ECall (EName "len") [(EAttr (EName "self") "unit_connections")])]); (ECall (EAttr (EName "self") "write_int_8") [(ECall (EName "len") [(EAttr (EName "self") "research_connections")])]); (ECall (EAttr (EName "self") "write_int_32") [(EAttr (EName "self") "total_unit_tech_groups")]); (ECall (EAttr (EName "self") "write_class_array") [(EAttr (EName "self") "tech_tree_ages"); (EName "version")]); (ECall (EAttr (EName "self") "write_class_array") [(EAttr (EName "self") "building_connections"); (EName "version")]); (ECall (EAttr (EName "self") "write_class_array") [(EAttr (EName "self") "unit_connections"); (EName "version")]); (ECall (EAttr (EName "self") "write_class_array") [(EAttr (EName "self") "research_connections"); (EName "version")])])])].
(** techtree.py:270 class TechTree *)
Definition src_TechTree : class := mkClass Dataclass ["GenieClass"]
  ["total_unit_tech_groups"; "tech_tree_ages"; "building_connections"; "unit_connections"; "research_connections"]
  []
  []
  [("from_bytes", src_TechTree_from_bytes); ("to_bytes", src_TechTree_to_bytes)].

(** datfile.py:46-50 DatFile.parse *)
Definition src_DatFile_parse : func := mkFunc ClassMethod "datfile" ["cls"; "input_file"] [] [
  SAssign "content" (ECall (EAttr (ECall (EName "Path") [(EName "input_file")]) "read_bytes") []);
  SAssign "data" (ECall (EAttr (EName "zlib") "decompress") [(EName "content"); EKw "wbits" (ENeg (EConst (KInt 15)))]);
  SAssign "byte_handler" (ECall (EName "ByteHandler") [(ECall (EName "memoryview") [(EName "data")])]);
  SReturn (ECall (EAttr (EName "cls") "from_bytes") [(EName "byte_handler")])].
(** datfile.py:52-55 DatFile.save *)
Definition src_DatFile_save : func := mkFunc Method "datfile" ["self"; "target_file"] [] [
  SAssign "uncompressed" (ECall (EAttr (EName "self") "to_bytes") []);
  SAssign "compressed" (ECall (EAttr (EName "zlib") "compress") [(EName "uncompressed"); EKw "level" (ENeg (EConst (KInt 1))); EKw "wbits" (ENeg (EConst (KInt 15)))]);
  SExpr (ECall (EAttr (ECall (EName "Path") [(EName "target_file")]) "write_bytes") [(EName "compressed")])].
(** datfile.py:58-114 DatFile.from_bytes *)
Definition src_DatFile_from_bytes : func := mkFunc ClassMethod "datfile" ["cls"; "content"] [] [
  SAssign "version" (ECall (EAttr (EName "content") "read_string") [(EConst (KInt 8))]);
  SSetAttr (EName "content") "version" (ECall (EName "Version") [(EName "version")]);
  SAssign "terrain_restrictions_size" (ECall (EAttr (EName "content") "read_int_16") []);
  SAssign "terrains_used_1" (ECall (EAttr (EName "content") "read_int_16") []);
  SAssign "float_ptr_terrain_tables" (ECall (EAttr (EName "content") "read_int_32_array") [(EName "terrain_restrictions_size")]);
  SAssign "terrain_pass_graphic_pointers" (ECall (EAttr (EName "content") "read_int_32_array") [(EName "terrain_restrictions_size")]);
  SAssign "terrain_restrictions" (ECall (EAttr (EName "content") "read_class_array_with_param") [(EName "TerrainRestriction"); (EName "terrain_restrictions_size"); (EName "terrains_used_1")]);
  SAssign "player_colours_size" (ECall (EAttr (EName "content") "read_int_16") []);
  SAssign "player_colours" (ECall (EAttr (EName "content") "read_class_array") [(EName "PlayerColour"); (EName "player_colours_size")]);
  SAssign "sounds_size" (ECall (EAttr (EName "content") "read_int_16") []);
  SAssign "sounds" (ECall (EAttr (EName "content") "read_class_array") [(EName "Sound"); (EName "sounds_size")]);
  SAssign "graphics_size" (ECall (EAttr (EName "content") "read_int_16") []);
  SAssign "graphic_pointers" (ECall (EAttr (EName "content") "read_int_32_array") [(EName "graphics_size")]);
  SAssign "graphics" (ECall (EAttr (EName "content") "read_class_array_with_pointers") [(EName "Graphic"); (EName "graphics_size"); (EName "graphic_pointers")]);
  SAssign "terrain_block" (ECall (EAttr (EName "content") "read_class") [(EName "TerrainBlock")]);
  SAssign "random_maps" (ECall (EAttr (EName "content") "read_class") [(EName "RandomMaps")]);
  SAssign "effects_size" (ECall (EAttr (EName "content") "read_int_32") []);
  SAssign "effects" (ECall (EAttr (EName "content") "read_class_array") [(EName "Effect"); (EName "effects_size")]);
  SAssign "unit_headers_size" (ECall (EAttr (EName "content") "read_int_32") []);
  SAssign "unit_headers" (ECall (EAttr (EName "content") "read_class_array") [(EName "UnitHeaders"); (EName "unit_headers_size")]);
  SAssign "civs_size" (ECall (EAttr (EName "content") "read_int_16") []);
  SAssign "civs" (ECall (EAttr (EName "content") "read_class_array") [(EName "Civ"); (EName "civs_size")]);
  SAssign "techs_size" (ECall (EAttr (EName "content") "read_int_16") []);
  SAssign "techs" (ECall (EAttr (EName "content") "read_class_array") [(EName "Tech"); (EName "techs_size")]);
  SAssign "time_slice" (ECall (EAttr (EName "content") "read_int_32") []);
  SAssign "unit_kill_rate" (ECall (EAttr (EName "content") "read_int_32") []);
  SAssign "unit_kill_total" (ECall (EAttr (EName "content") "read_int_32") []);
  SAssign "unit_hit_point_rate" (ECall (EAttr (EName "content") "read_int_32") []);
  SAssign "unit_hit_point_total" (ECall (EAttr (EName "content") "read_int_32") []);
  SAssign "razing_kill_rate" (ECall (EAttr (EName "content") "read_int_32") []);
  SAssign "razing_kill_total" (ECall (EAttr (EName "content") "read_int_32") []);
  SAssign "tech_tree" (ECall (EAttr (EName "content") "read_class") [(EName "TechTree")]);
  SReturn (ECall (EName "cls") [EKw "version" (EName "version"); EKw "float_ptr_terrain_tables" (EName "float_ptr_terrain_tables"); EKw "terrain_pass_graphic_pointers" (EName "terrain_pass_graphic_pointers"); EKw "terrain_restrictions" (EName "terrain_restrictions"); EKw "player_colours" (EName "player_colours"); EKw "sounds" (EName "sounds"); EKw "graphics" (EName "graphics"); EKw "terrain_block" (EName "terrain_block"); EKw "random_maps" (EName "random_maps"); EKw "effects" (EName "effects"); EKw "unit_headers" (EName "unit_headers"); EKw "civs" (EName "civs"); EKw "techs" (EName "techs"); EKw "time_slice" (EName "time_slice"); EKw "unit_kill_rate" (EName "unit_kill_rate"); EKw "unit_kill_total" (EName "unit_kill_total"); EKw "unit_hit_point_rate" (EName "unit_hit_point_rate"); EKw "unit_hit_point_total" (EName "unit_hit_point_total"); EKw "razing_kill_rate" (EName "razing_kill_rate"); EKw "razing_kill_total" (EName "razing_kill_total"); EKw "tech_tree" (EName "tech_tree")])].
(** datfile.py:117-118 DatFile.graphic_pointers *)
Definition src_DatFile_graphic_pointers : func := mkFunc Property "datfile" ["self"] [] [
  SReturn (EFor (EIf (ECmp CIs (EName "g") (EConst KNone)) (EConst (KInt 0)) (EConst (KInt 1))) "g" (EAttr (EName "self") "graphics") None)].
(** datfile.py:120-160 DatFile.to_bytes *)
Definition src_DatFile_to_bytes : func := mkFunc Method "datfile" ["self"; "version"] [("version", (EAttr (EName "Version") "UNDEFINED"))] [
  SAssign "version" (ECall (EName "Version") [(EAttr (EName "self") "version")]);
  SAssign "terrain_restrictions_size" (ECall (EName "len") [(EAttr (EName "self") "terrain_restrictions")]);
  SAssert (EChain CEq (ECall (EName "len") [(EAttr (EName "self") "float_ptr_terrain_tables")]) (ECall (EName "len") [(EAttr (EName "self") "terrain_pass_graphic_pointers")]) CEq (EName "terrain_restrictions_size"));
  SAssign "terrains_used" (EConst (KInt 0));
  SIf (EAttr (EName "self") "terrain_restrictions") [
    SAssign "terrains_used" (ECall (EName "len") [(EAttr (EIndex (EAttr (EName "self") "terrain_restrictions") (EConst (KInt 0))) "passable_buildable_dmg_multiplier")])] [];
  SReturn (ECall (EAttr (EConst (KBytes [])) "join") [(EList [(ECall (EAttr (EName "self") "write_string") [(EConst (KInt 8)); (EAttr (EName "self") "version")]); (ECall (EAttr (EName "self") "write_int_16") [(EName "terrain_restrictions_size")]); (ECall (EAttr (EName "self") "write_int_16") [(EName "terrains_used")]); (ECall (EAttr (EName "self") "write_int_32_array") [(EAttr (EName "self") "float_ptr_terrain_tables")]); (ECall (EAttr (EName "self") "write_int_32_array") [(EAttr (EName "self") "terrain_pass_graphic_pointers")]); (ECall (EAttr (EName "self") "write_class_array") [(EAttr (EName "self") "terrain_restrictions"); (EName "version")]); (ECall (EAttr (EName "self") "write_int_16") [(ECall (EName "len") [(EAttr (EName "self") "player_colours")])]); (ECall (EAttr (EName "self") "write_class_array") [(EAttr (EName "self") "player_colours"); (EName "version")]); (ECall (EAttr (EName "self") "write_int_16") [(ECall (EName "len") [(EAttr (EName "self") "sounds")])]); (ECall (EAttr (EName "self") "write_class_array") [(EAttr (EName "self") "sounds"); (EName "version")]); (ECall (EAttr (EName "self") "write_int_16") [(ECall (EName "len") [(EAttr (EName "self") "graphics")])]); (ECall (EAttr (EName "self") "write_int_32_array") [(EAttr (EName "self") "graphic_pointers")]); (ECall (EAttr (EName "self") "write_class_array") [(EAttr (EName "self") "graphics"); (EName "version")]); (ECall (EAttr (EName "self") "write_class") [(EAttr (EName "self") "terrain_block"); (EName "version")]); (ECall (EAttr (EName "self") "write_class") [(EAttr (EName "self") "random_maps"); (EName "version")]); (ECall (EAttr (EName "self") "write_int_32") [(ECall (EName "len") [(EAttr (EName "self") "effects")])]); (ECall (EAttr (EName "self") "write_class_array") [(EAttr (EName "self") "effects"); (EName "version")]); (ECall (EAttr (EName "self") "write_int_32") [(ECall (EName "len") [(EAttr (EName "self") "unit_headers")])]); (ECall (EAttr (EName "self") "write_class_array") [(EAttr (EName "self") "unit_headers"); (EName "version")]); (ECall (EAttr (EName "self") "write_int_16") [(ECall (EName "len") [(EAttr (EName "self") "civs")])]); (ECall (EAttr (EName "self") "write_class_array") [(EAttr (EName "self") "civs"); (EName "version")]); (ECall (EAttr (EName "self") "write_int_16") [(ECall (EName "len") [(EAttr (EName "self") "techs")])]); (ECall (EAttr (EName "self") "write_class_array") [(EAttr (EName "self") "techs"); (EName "version")]); (ECall (EAttr (EName "self") "write_int_32") [(EAttr (EName "self") "time_slice")]); (ECall (EAttr (EName "self") "write_int_32") [(EAttr (EName "self") "unit_kill_rate")]); (ECall (EAttr (EName "self") "write_int_32") [(EAttr (EName "self") "unit_kill_total")]); (ECall (EAttr (EName "self") "write_int_32") [(EAttr (EName "self") "unit_hit_point_rate")]); (ECall (EAttr (EName "self") "write_int_32") [(EAttr (EName "self") "unit_hit_point_total")]); (ECall (EAttr (EName "self") "write_int_32") [(EAttr (EName "self") "razing_kill_rate")]); (ECall (EAttr (EName "self") "write_int_32") [(EAttr (EName "self") "razing_kill_total")]); (ECall (EAttr (EName "self") "write_class") [(EAttr (EName "self") "tech_tree"); (EName "version")])])])].
(** datfile.py:22 class DatFile *)
Definition src_DatFile : class := mkClass Dataclass ["GenieClass"]
  ["version"; "float_ptr_terrain_tables"; "terrain_pass_graphic_pointers"; "terrain_restrictions"; "player_colours"; "sounds"; "graphics"; "terrain_block"; "random_maps"; "effects"; "unit_headers"; "civs"; "techs"; "time_slice"; "unit_kill_rate"; "unit_kill_total"; "unit_hit_point_rate"; "unit_hit_point_total"; "razing_kill_rate"; "razing_kill_total"; "tech_tree"]
  []
  []
  [("from_bytes", src_DatFile_from_bytes); ("graphic_pointers", src_DatFile_graphic_pointers); ("to_bytes", src_DatFile_to_bytes)].

Definition source : program := mkProgram
  [("String", src_String);
   ("Int", src_Int);
   ("Float", src_Float);
   ("Version", src_Version);
   ("UnitType", src_UnitType);
   ("GenieClass", src_GenieClass);
   ("ByteHandler", src_ByteHandler);
   ("SoundItem", src_SoundItem);
   ("Sound", src_Sound);
   ("PlayerColour", src_PlayerColour);
   ("EffectCommand", src_EffectCommand);
   ("Effect", src_Effect);
   ("TerrainPassGraphic", src_TerrainPassGraphic);
   ("TerrainRestriction", src_TerrainRestriction);
   ("GraphicDelta", src_GraphicDelta);
   ("GraphicAngleSound", src_GraphicAngleSound);
   ("Graphic", src_Graphic);
   ("FrameData", src_FrameData);
   ("Terrain", src_Terrain);
   ("TileSize", src_TileSize);
   ("TerrainBlock", src_TerrainBlock);
   ("MapUnit", src_MapUnit);
   ("MapTerrain", src_MapTerrain);
   ("MapLand", src_MapLand);
   ("MapElevation", src_MapElevation);
   ("MapInfo", src_MapInfo);
   ("RandomMaps", src_RandomMaps);
   ("Task", src_Task);
   ("UnitHeaders", src_UnitHeaders);
   ("ResourceStorage", src_ResourceStorage);
   ("DamageGraphic", src_DamageGraphic);
   ("DeadFish", src_DeadFish);
   ("Bird", src_Bird);
   ("AttackOrArmor", src_AttackOrArmor);
   ("Type50", src_Type50);
   ("Projectile", src_Projectile);
   ("ResourceCost", src_ResourceCost);
   ("TrainLocation", src_TrainLocation);
   ("Creatable", src_Creatable);
   ("BuildingAnnex", src_BuildingAnnex);
   ("Building", src_Building);
   ("Unit", src_Unit);
   ("Civ", src_Civ);
   ("ResearchResourceCost", src_ResearchResourceCost);
   ("ResearchLocation", src_ResearchLocation);
   ("Tech", src_Tech);
   ("Common", src_Common);
   ("TechTreeAge", src_TechTreeAge);
   ("BuildingConnection", src_BuildingConnection);
   ("UnitConnection", src_UnitConnection);
   ("ResearchConnection", src_ResearchConnection);
   ("TechTree", src_TechTree);
   ("DatFile", src_DatFile)]
  [("common", [("TILE_TYPE_COUNT", (EConst (KInt 19)));
    ("TERRAIN_COUNT", (EConst (KInt 200)));
    ("TERRAIN_UNITS_SIZE", (EConst (KInt 30)))]);
   ("task", [("FORMAT", (EConst (KStr "<hhbhhhhhhhhfffbfbbhhbbbhhhhhhll")));
    ("FORMAT_LENGTH", (EConst (KInt 67)));
    ("FORMAT_88", (EConst (KStr "<hhbhhhhhhhhfffbfbbhhbbbhhhhhhllh")));
    ("FORMAT_LENGTH_88", (ECall (EAttr (EName "struct") "calcsize") [(EName "FORMAT_88")]))]);
   ("unit", [("RESOURCE_STORAGE_FORMAT", (EConst (KStr "<hfb")));
    ("RESOURCE_STORAGE_FORMAT_LENGTH", (EConst (KInt 7)));
    ("DAMAGE_GRAPHIC_FORMAT", (EConst (KStr "<hhb")));
    ("DAMAGE_GRAPHIC_FORMAT_LENGTH", (EConst (KInt 5)));
    ("DEAD_FISH_FORMAT", (EConst (KStr "<hhfbhbfbffffff")));
    ("DEAD_FISH_FORMAT_LENGTH", (EConst (KInt 41)));
    ("ATTACK_OR_ARMOR_FORMAT", (EConst (KStr "<hh")));
    ("ATTACK_OR_ARMOR_FORMAT_LENGTH", (EConst (KInt 4)));
    ("PROJECTILE_FORMAT", (EConst (KStr "<bbbbbf")));
    ("PROJECTILE_FORMAT_LENGTH", (EConst (KInt 9)));
    ("RESOURCE_COST_FORMAT", (EConst (KStr "<hhh")));
    ("RESOURCE_COST_FORMAT_LENGTH", (EConst (KInt 6)));
    ("TRAIN_LOCATION_FORMAT", (EConst (KStr "<hhb")));
    ("TRAIN_LOCATOIN_FORMAT_LENGTH", (ECall (EAttr (EName "struct") "calcsize") [(EName "TRAIN_LOCATION_FORMAT")]));
    ("TRAIN_LOCATION_FORMAT_88", (EConst (KStr "<hhbl")));
    ("TRAIN_LOCATOIN_FORMAT_LENGTH_88", (ECall (EAttr (EName "struct") "calcsize") [(EName "TRAIN_LOCATION_FORMAT_88")]));
    ("CREATABLE_FORMAT", (EConst (KStr "<hhbffbblhhhffhhffffbfffllbh")));
    ("CREATABLE_FORMAT_LENGTH", (EConst (KInt 77)));
    ("CREATABLE_FORMAT_84", (EConst (KStr "<hhbffbblhhhhffhhhlbfhllhffffbfffllbh")));
    ("CREATABLE_FORMAT_LENGTH_84", (ECall (EAttr (EName "struct") "calcsize") [(EName "CREATABLE_FORMAT_84")]));
    ("CREATABLE_FORMAT_88", (EConst (KStr "<ffbblhhhhffhhhlbfhllhffffbfffllbh")));
    ("CREATABLE_FORMAT_LENGTH_88", (ECall (EAttr (EName "struct") "calcsize") [(EName "CREATABLE_FORMAT_88")]));
    ("BUILDING_ANNEX_FORMAT", (EConst (KStr "<hff")));
    ("BUILDING_ANNEX_FORMAT_LENGTH", (EConst (KInt 10)));
    ("BUILDING_ANNEX_FORMAT_1", (EConst (KStr "<hhhhhhbhbhhhhb")));
    ("BUILDING_ANNEX_FORMAT_1_LENGTH", (EConst (KInt 25)));
    ("BUILDING_ANNEX_FORMAT_2", (EConst (KStr "<hhhhllbffhbbbbbb")));
    ("BUILDING_ANNEX_FORMAT_2_LENGTH", (EConst (KInt 33)));
    ("FORMAT", (EConst (KStr "<bhllhhhhhbhfbfffhhhhbbhbhbbhhhhffbbhbhfbbbbbfblllbbbbbbbbbhbbfffll")));
    ("FORMAT_LENGTH", (EConst (KInt 140)));
    ("FORMAT_88", (EConst (KStr "<bhllhhhhhbhfbfffhhhhbbhbhbbhhhhffbbhbhfbbbbbfbllbbbbbbbbbhbbfffll")));
    ("FORMAT_LENGTH_88", (ECall (EAttr (EName "struct") "calcsize") [(EName "FORMAT_88")]))])].

(** README.md:34-38 without its import *)
Definition readme_1 : list stmt := [
  SAssign "data" (ECall (EAttr (EName "DatFile") "parse") [(EConst (KStr "path/to/empires2_x2_p1.dat"))]);
  SSetAttr (EIndex (EAttr (EIndex (EAttr (EName "data") "techs") (EConst (KInt 22))) "resource_costs") (EConst (KInt 0))) "amount" (EConst (KInt 69));
  SExpr (ECall (EAttr (EName "data") "save") [(EConst (KStr "path/to/modded/empires2_x2_p1.dat"))])].

(** README.md:44-49 without its import *)
Definition readme_2 : list stmt := [
  SAssign "data" (ECall (EAttr (EName "DatFile") "parse") [(EConst (KStr "path/to/empires2_x2_p1.dat"))]);
  SFor "civ" (EAttr (EName "data") "civs") [
    SExpr (ECall (EAttr (EAttr (EAttr (EIndex (EAttr (EName "civ") "units") (EConst (KInt 434))) "bird") "tasks") "pop") [])];
  SExpr (ECall (EAttr (EName "data") "save") [(EConst (KStr "path/to/modded/empires2_x2_p1.dat"))])].
