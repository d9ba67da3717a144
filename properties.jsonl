{"id": "C01", "title": "Save then load returns the same data file", "statement": "For every dat object that satisfies the documented well-formedness conditions (integers in the range of their on-disk width, floats representable as binary32, strings without trailing NUL, list lengths that match their on-disk counts), in every supported file version, to_bytes() succeeds and from_bytes() of the result returns an object equal to the original in every field, having consumed exactly the bytes written.", "quantifier": "all well-formed dat objects, all ten file versions, any number and size of contained objects", "why_tests_cant": "the object space is unbounded (lists of any length, 2^32 values per field, ten versions); the repo test only re-encodes whatever .dat files are at hand", "anchors": ["src/genieutils/datfile.py:DatFile.from_bytes", "src/genieutils/datfile.py:DatFile.to_bytes"]}
{"id": "C02", "title": "The well-formedness conditions are exact", "statement": "An object survives save-and-load unchanged if and only if it satisfies the well-formedness conditions, and those objects are exactly the ones that loading some byte string can produce.", "quantifier": "all dat objects (well-formed or not) and all byte strings", "why_tests_cant": "a claim about every object outside a set as well as inside it", "anchors": ["src/genieutils/datfile.py:DatFile.from_bytes", "src/genieutils/datfile.py:DatFile.to_bytes", "src/genieutils/unit.py:Unit"]}
{"id": "C03", "title": "Load, save, load is a fixpoint on arbitrary input", "statement": "For every byte string, valid or damaged, if from_bytes() returns an object then to_bytes() of that object succeeds and from_bytes() of the re-encoded bytes returns the identical object; further save/load cycles change nothing.", "quantifier": "all byte strings of any length", "why_tests_cant": "ranges over all byte strings including malformed ones", "anchors": ["src/genieutils/datfile.py:DatFile.from_bytes", "src/genieutils/datfile.py:DatFile.to_bytes", "src/genieutils/common.py:ByteHandler"]}
{"id": "C04", "title": "Byte-exact re-encoding", "statement": "If loading meets none of the enumerated information-losing situations (a read past the end, a debug string ending in NUL, a negative element count, a presence pointer other than 0/1, a signalling NaN, a terrain count with no terrain restrictions) and consumes the whole input, then to_bytes() returns exactly the input bytes; and conversely, if to_bytes() returns the input bytes then none of the situations occurred and everything was consumed.", "quantifier": "all byte strings that load", "why_tests_cant": "the repo test checks this for a handful of game files only; the claim is for every canonical file", "anchors": ["src/genieutils/common.py:ByteHandler", "src/genieutils/datfile.py:DatFile", "src/genieutils/civ.py:Civ.unit_pointers"]}
{"id": "C05", "title": "Decoding is self-delimiting and position independent", "statement": "Decoding any record from bytes written by its encoder gives the same result wherever the bytes sit in the buffer and whatever precedes or follows them, and advances the cursor by exactly the number of bytes written; trailing bytes after a whole file are ignored.", "quantifier": "all records, all surrounding byte strings", "why_tests_cant": "quantifies over all prefixes and suffixes", "anchors": ["src/genieutils/common.py:ByteHandler.consume_range", "src/genieutils/common.py:ByteHandler.read_class"]}
{"id": "C06", "title": "Every record type round-trips on its own", "statement": "For each record class (sounds, graphics, terrains, random maps, effects, unit headers, tasks, units and all their sections, civs, techs, tech tree nodes), every well-formed instance encoded for any version decodes, in a reader of that version, to an equal instance.", "quantifier": "all instances of all 40 record classes, all versions", "why_tests_cant": "unbounded instances; only whole-file comparison is tested", "anchors": ["src/genieutils/unit.py", "src/genieutils/task.py", "src/genieutils/tech.py", "src/genieutils/graphic.py", "src/genieutils/sound.py", "src/genieutils/techtree.py", "src/genieutils/terrainblock.py", "src/genieutils/randommaps.py", "src/genieutils/civ.py", "src/genieutils/effect.py", "src/genieutils/unitheaders.py", "src/genieutils/terrainrestriction.py", "src/genieutils/playercolour.py"]}
{"id": "C07", "title": "Encoded bytes follow the file-format tables", "statement": "For every record class and version, to_bytes() yields exactly the concatenation, in table order, of the little-endian encodings of the fields listed in an independent layout table, and it returns (rather than raising) exactly when every table cell is representable.", "quantifier": "all instances of all record classes, in all versions, representable or not", "why_tests_cant": "round-trip tests cannot see a reader and writer that are wrong in the same way; layout is a claim for all values", "anchors": ["src/genieutils/common.py:GenieClass", "src/genieutils/unit.py:Unit.to_bytes", "src/genieutils/task.py:FORMAT"]}
{"id": "C08", "title": "Encoded size is determined by list lengths, string sizes and version", "statement": "The number of bytes written for a record depends only on the file version, the lengths of its lists, the UTF-8 sizes of its strings and which optional parts are present, according to a size formula: e.g. a task takes 67 bytes before 8.8 and 69 from 8.8.", "quantifier": "all instances for which to_bytes succeeds, all versions", "why_tests_cant": "a claim about every instance", "anchors": ["src/genieutils/task.py:FORMAT_LENGTH", "src/genieutils/unit.py:FORMAT_LENGTH"]}
{"id": "C09", "title": "Integer codec", "statement": "Int.to_bytes(z, n, signed) returns n bytes exactly when z fits n bytes and raises OverflowError otherwise; Int.from_bytes inverts it, and conversely re-encoding any decoded n-byte word gives those bytes back; byte i is floor(z/256^i) mod 256.", "quantifier": "all integers, all widths, both signednesses, all byte strings", "why_tests_cant": "infinite domain in value and width", "anchors": ["src/genieutils/datatypes.py:Int"]}
{"id": "C10", "title": "UTF-8 text codec", "statement": "Encoding any string of Unicode scalar values and decoding gives it back; decoding any byte string either raises or gives a string of scalar values that re-encodes to exactly those bytes; surrogates are rejected when encoding.", "quantifier": "all strings, all byte strings", "why_tests_cant": "infinite domain", "anchors": ["src/genieutils/datatypes.py:String"]}
{"id": "C11", "title": "Length-prefixed (debug) strings", "statement": "write_debug_string emits the marker 0x0A60, the 16-bit UTF-8 length and the text; read_debug_string returns the text if it does not end in NUL, strips exactly the trailing NULs otherwise, raises AssertionError on any other marker, and strings over 65535 encoded bytes raise OverflowError.", "quantifier": "all strings, all byte strings", "why_tests_cant": "infinite domain including strings containing NUL and multi-byte text", "anchors": ["src/genieutils/common.py:GenieClass.write_debug_string", "src/genieutils/common.py:ByteHandler.read_debug_string"]}
{"id": "C12", "title": "Fixed-length strings", "statement": "write_string(n, s) emits s padded with NUL to exactly n bytes when its encoding has at most n bytes, and read_string(n) returns s when s does not end in NUL; a longer string is emitted in full (more than n bytes), neither truncated nor rejected.", "quantifier": "all lengths, all strings", "why_tests_cant": "infinite domain", "anchors": ["src/genieutils/datatypes.py:String.to_bytes", "src/genieutils/common.py:GenieClass.write_string", "src/genieutils/common.py:ByteHandler.read_string"]}
{"id": "C13", "title": "Float storage is exact for binary32 values and correctly rounded otherwise", "statement": "Every non-signalling 4-byte pattern read as a float is written back as the same 4 bytes; a Python float survives a write/read cycle iff it is a binary32 value; any other finite float within range is stored as a nearest binary32 value, ties to even.", "quantifier": "all 2^32 patterns and all 2^64 Python floats", "why_tests_cant": "domain far too large to enumerate in a test, and correctness of rounding is a for-all claim", "anchors": ["src/genieutils/datatypes.py:Float"]}
{"id": "C14", "title": "Float overflow: exception in struct-packed records, infinity elsewhere", "statement": "A finite float too large for binary32 makes struct-packed records (tasks, unit headers, creatable, ...) raise OverflowError, while write_float stores an infinity of the same sign without any error; NaN and infinities are always accepted.", "quantifier": "all Python floats", "why_tests_cant": "boundary of a 2^64 domain", "anchors": ["src/genieutils/datatypes.py:Float.to_bytes", "src/genieutils/task.py:Task.to_bytes_84"]}
{"id": "C15", "title": "struct formats and their declared lengths", "statement": "For every format string used by the library the declared length equals the packed size, packing any in-range values yields that many bytes, unpacking them returns the values, and unpacking any buffer of that size then packing returns the buffer (quiet floats); buffers of any other size raise struct.error.", "quantifier": "all value tuples and buffers for every format", "why_tests_cant": "values are unbounded; PROJECTILE_FORMAT and the 8.4/8.8 formats have no length test at all", "anchors": ["src/genieutils/task.py:FORMAT", "src/genieutils/unit.py:FORMAT", "src/genieutils/unit.py:PROJECTILE_FORMAT"]}
{"id": "C16", "title": "Version order and lookup", "statement": "Version comparison is a total order that agrees with the numeric version, UNDEFINED is below every real version, and version lookup accepts exactly the enumerated version strings, mapping each to the version whose string it is.", "quantifier": "all pairs and triples of versions, all strings", "why_tests_cant": "lookup ranges over all strings; order laws over all pairs/triples", "anchors": ["src/genieutils/versions.py:Version"]}
{"id": "C17", "title": "Fields absent from old versions load with fixed defaults and do not affect the bytes written for them", "statement": "Loading a record in a version that does not store a field always gives the documented default (task enabled -1, combat damage reflection 0.0 / friendly fire 1.0 / interrupt frame -1 / garrison firepower 0.0 / second attack graphic -1, the nine 8.4-only creatable fields, hot key 16000), and writing for that version produces the same bytes whatever those fields hold.", "quantifier": "all byte strings and all record values, all versions", "why_tests_cant": "for all inputs and all values of the ignored fields", "anchors": ["src/genieutils/task.py:Task.from_bytes_84", "src/genieutils/unit.py:Type50.from_bytes", "src/genieutils/unit.py:Creatable.from_bytes_78", "src/genieutils/unit.py:TrainLocation.from_bytes_84"]}
{"id": "C18", "title": "Changing the version of a file, in particular upgrading to 8.8", "statement": "Taking any object loaded from (or valid for) any version, setting its version to 8.8, saving and loading gives the same object except that the hot_key of every unit without a creatable section becomes 16000; nothing else changes. For any other target version the result is the explicitly specified conversion, provided that every unit has a number of drop sites and train locations that the target version can store.", "quantifier": "all well-formed dat objects, all pairs of versions", "why_tests_cant": "all objects; conversion is not tested at all in the repo", "anchors": ["src/genieutils/unit.py:Unit.from_bytes_88", "src/genieutils/unit.py:Unit.to_bytes_88", "src/genieutils/tech.py:Tech.to_bytes_88", "src/genieutils/task.py:Task.to_bytes_88"]}
{"id": "C19", "title": "Downgrading from 8.8 to 8.4", "statement": "Saving an 8.8 object as 8.4 keeps exactly the first train location and first research location of each unit and tech (a tech with none gets the fixed placeholder), sets each task to enabled -1, keeps every other field, and raises IndexError iff some written creatable section has no train location.", "quantifier": "all well-formed 8.8 dat objects", "why_tests_cant": "all objects; conversion is untested", "anchors": ["src/genieutils/unit.py:Creatable.to_bytes_84", "src/genieutils/tech.py:Tech.to_bytes_84", "src/genieutils/unit.py:Unit.to_bytes_84"]}
{"id": "C20", "title": "Hot key coherence of loaded units", "statement": "Every loaded unit has: before 8.8, if it has a creatable section, exactly one train location whose hot key equals the unit hot key; from 8.8, hot_key equal to the first train location hot key, or 16000 if there is none.", "quantifier": "all byte strings, all versions", "why_tests_cant": "all inputs", "anchors": ["src/genieutils/unit.py:Unit.from_bytes_84", "src/genieutils/unit.py:Unit.from_bytes_88"]}
{"id": "C21", "title": "Unit sections are determined by the unit type", "statement": "In every loaded unit a section (speed, dead_fish, bird, type_50, projectile, creatable, building) is present iff the unit type calls for it (types 20-, 30-, 40-, 50-, =60, 70-, =80, none for 90); when writing, sections the type does not call for are ignored.", "quantifier": "all byte strings; all unit objects", "why_tests_cant": "all inputs and all type bytes", "anchors": ["src/genieutils/unit.py:Unit.from_bytes_84", "src/genieutils/unit.py:Unit.to_bytes_84", "src/genieutils/common.py:UnitType"]}
{"id": "C22", "title": "Empty slots keep their positions", "statement": "Loading and saving preserve which positions of the graphics list and of each civ units list are empty: slot i is None after a round trip iff it was None before, and a loaded slot is None iff its stored pointer is zero.", "quantifier": "all lists with any pattern of empty slots, all pointer values", "why_tests_cant": "unbounded patterns", "anchors": ["src/genieutils/civ.py:Civ.unit_pointers", "src/genieutils/datfile.py:DatFile.graphic_pointers", "src/genieutils/common.py:ByteHandler.read_class_array_with_pointers"]}
{"id": "C23", "title": "Out-of-range values never wrap", "statement": "If any integer field that is written is outside the range of its on-disk width, to_bytes() raises instead of writing a wrapped or truncated value; equivalently a returned encoding has every written integer in range and stored as itself.", "quantifier": "all objects, all fields, all integers", "why_tests_cant": "hundreds of fields times an infinite domain", "anchors": ["src/genieutils/common.py:GenieClass.write_int_8", "src/genieutils/common.py:GenieClass.write_int_16", "src/genieutils/common.py:GenieClass.write_int_32", "src/genieutils/unit.py:Unit.to_bytes"]}
{"id": "C24", "title": "List counts that do not fit raise", "statement": "A list whose length exceeds its count field (255 for tech-tree and damage-graphic counts, 32767 for 16-bit counts) makes to_bytes() raise; it is never written with a wrong count.", "quantifier": "lists of every length", "why_tests_cant": "unbounded lengths", "anchors": ["src/genieutils/techtree.py:TechTree.to_bytes", "src/genieutils/effect.py:Effect.to_bytes", "src/genieutils/civ.py:Civ.to_bytes", "src/genieutils/unit.py:Unit.to_bytes_84"]}
{"id": "C25", "title": "Consistency assertions", "statement": "to_bytes() raises AssertionError when a terrain restriction has different numbers of multipliers and graphics, when the two random-map tables differ in length, or when the terrain pointer tables differ in length from the restrictions; and for no other reason.", "quantifier": "all objects", "why_tests_cant": "all shapes", "anchors": ["src/genieutils/terrainrestriction.py:TerrainRestriction.to_bytes", "src/genieutils/randommaps.py:RandomMaps.to_bytes", "src/genieutils/datfile.py:DatFile.to_bytes"]}
{"id": "C26", "title": "Unchecked shape requirements (silent corruption)", "statement": "The following mistakes are not detected by to_bytes(): whenever every single number and string of the file can be stored it returns bytes, and they do not load back to the same object: terrain count other than 200, tile size count other than 19, wrong lengths of the fixed tuples of terrains, graphics, units (also when two wrong lengths of a unit cancel out), unit sections, techs and the tech tree, ragged terrain restrictions, map size fields differing from their lists, graphic angle sounds inconsistent with angle_count/angle_sounds_used, drop sites other than 3 before 7.8, a unit header marked existing without a task list or the reverse, a unit whose type calls for a missing section or has one it should not, a unit hot key differing from that of its first train location, several train or research locations before 8.8, non-default values in fields the version does not store, a file version string UNDEFINED.", "quantifier": "for each mistake, every object exhibiting it (with otherwise encodable fields)", "why_tests_cant": "absence of a check is a for-all claim about the encoder", "anchors": ["src/genieutils/randommaps.py:MapInfo.to_bytes", "src/genieutils/graphic.py:Graphic.to_bytes", "src/genieutils/unit.py:Bird.to_bytes", "src/genieutils/unitheaders.py:UnitHeaders.to_bytes", "src/genieutils/datfile.py:DatFile.to_bytes"]}
{"id": "C27", "title": "save() then parse() through the file system", "statement": "For every well-formed object, every path and every file-system state, save(path) followed by parse(path) returns an equal object, provided raw inflate inverts raw deflate; all other files are untouched, and saving twice is the same as saving once.", "quantifier": "all objects, paths, file-system contents, all compressors satisfying inflate(deflate x) = x", "why_tests_cant": "all objects and file-system states", "anchors": ["src/genieutils/datfile.py:DatFile.parse", "src/genieutils/datfile.py:DatFile.save"]}
{"id": "C28", "title": "A failing save leaves the file system unchanged", "statement": "If serialisation raises for any reason, save() raises the same exception and no file, in particular not the target, is modified.", "quantifier": "all objects, paths, file-system states", "why_tests_cant": "all failing objects", "anchors": ["src/genieutils/datfile.py:DatFile.save"]}
{"id": "C29", "title": "Crash during save", "statement": "If the process dies during save(), the target holds either its old content or a prefix of the new compressed content (possibly empty), other files are untouched; save is not atomic: for every existing non-empty target there is a crash point at which the old content is already gone and the new not complete.", "quantifier": "all crash points, objects, file-system states", "why_tests_cant": "crash points cannot be enumerated by tests", "anchors": ["src/genieutils/datfile.py:DatFile.save"]}
{"id": "C30", "title": "Truncated input", "statement": "Reading past the end of the data never raises for integer fields: missing bytes read as a shorter integer (0 if nothing is left); float and struct-packed fields raise struct.error, a string whose marker is cut off raises AssertionError and one whose text is cut off is shortened. Hence a file cut anywhere in its closing seven integers and tech tree is accepted; a file cut at a section boundary behind the terrain block is accepted and every later section is silently empty; whatever follows a section boundary, if the file is accepted the sections before it are intact; and a file cut at or before the end of the terrain block is accepted exactly if the cut is in the last 39 bytes of the terrain block (its closing integers), otherwise it raises.", "quantifier": "all byte strings and all cut points", "why_tests_cant": "every cut point of every file", "anchors": ["src/genieutils/common.py:ByteHandler.consume_range", "src/genieutils/datatypes.py:Float", "src/genieutils/datfile.py:DatFile.from_bytes"]}
{"id": "C31", "title": "Locality of edits", "statement": "Changing one fixed-width field of one record in a well-formed object changes only the bytes of that field in the saved file: prefix, suffix and total length are identical.", "quantifier": "all objects, all records reachable in the file, all new values", "why_tests_cant": "all objects and edits", "anchors": ["src/genieutils/datfile.py:DatFile.to_bytes", "src/genieutils/tech.py:Tech.to_bytes"]}
{"id": "C32", "title": "README edits do what they say", "statement": "Setting techs[i].resource_costs[j].amount and saving gives a file that loads as the original with exactly that amount changed and nothing else; popping the last task of unit k of every civ gives a file that loads as the original without those tasks, shorter by exactly one task record per civ.", "quantifier": "all well-formed objects, indices and amounts; all civ lists", "why_tests_cant": "all objects", "anchors": ["README.md", "src/genieutils/tech.py:ResearchResourceCost", "src/genieutils/unit.py:Bird"]}
{"id": "C33", "title": "Distinct objects have distinct encodings", "statement": "Two well-formed objects of the same version with the same bytes are equal; moreover no encoding is a proper prefix of another.", "quantifier": "all pairs of well-formed objects", "why_tests_cant": "pairs of unbounded objects", "anchors": ["src/genieutils/datfile.py:DatFile.to_bytes"]}
{"id": "C34", "title": "The JSON dump is complete", "statement": "dataclasses.asdict of a loaded file contains every field of every record under its own name in declaration order: two objects with the same dump are equal. (Of a file older than 8.4 the loaded object, and so its dump, has the int 0 for invulnerability_level; in newer files it is a float. The version tells which.)", "quantifier": "all pairs of objects", "why_tests_cant": "all objects", "anchors": ["src/genieutils/scripts.py:dat_to_json"]}
{"id": "C35", "title": "DatFile version handling", "statement": "DatFile.to_bytes ignores its version argument and uses the version stored in the object for every contained record; any version string other than the enumerated ones makes it raise ValueError, as does loading a header that is not an enumerated version.", "quantifier": "all objects, all version strings, all header bytes", "why_tests_cant": "all strings", "anchors": ["src/genieutils/datfile.py:DatFile.to_bytes", "src/genieutils/datfile.py:DatFile.from_bytes"]}
{"id": "C36", "title": "Host byte order", "statement": "Float.to_bytes/from_bytes use the byte order of the host: on little-endian hosts the stored bytes are the little-endian binary32 word; on a big-endian host they are reversed, so files written there differ, although write/read on one host is still the identity.", "quantifier": "all floats, both byte orders", "why_tests_cant": "needs a big-endian host to observe", "anchors": ["src/genieutils/datatypes.py:Float"]}
{"id": "C37", "title": "Array readers", "statement": "Each read_*_array(size) returns max(0, size) elements in stream order, equal to size successive single reads, and advances the cursor by the sum of their sizes; the fixed-arity variants agree with the sized variant.", "quantifier": "all sizes, all buffers, all element readers", "why_tests_cant": "unbounded sizes", "anchors": ["src/genieutils/common.py:ByteHandler.read_class_array", "src/genieutils/common.py:ByteHandler.read_int_8_array"]}
{"id": "C38", "title": "Each listed loss is a real loss", "statement": "For each of the situations excluded in C04 there is an input that loads without error, exhibits only that situation, and is not reproduced by to_bytes().", "quantifier": "existence, per situation", "why_tests_cant": "shows C04 cannot be weakened; gives concrete inputs", "anchors": ["src/genieutils/common.py:ByteHandler", "src/genieutils/datatypes.py:String.from_bytes"]}
{"id": "C39", "title": "Which exceptions loading and saving can raise", "statement": "Loading raises only AssertionError, UnicodeDecodeError, ValueError (exactly for an unknown version string) or struct.error, and saving only AssertionError, IndexError, OverflowError, UnicodeEncodeError, ValueError or struct.error, each only in its documented circumstances: for example UnicodeEncodeError only if some string cannot be encoded, ValueError only for an unknown version string; records made of integers only never raise when loaded.", "quantifier": "all byte strings and all objects", "why_tests_cant": "a negative claim over every input", "anchors": ["src/genieutils/common.py", "src/genieutils/datatypes.py", "src/genieutils/datfile.py"]}
{"id": "C40", "title": "Unread data never matters", "statement": "What a reader returns depends only on the bytes it reads: bytes behind the end of what is read can be replaced, extended or cut without changing the result.", "quantifier": "all byte strings, all records, all changes behind the end of what is read", "why_tests_cant": "quantifies over all pairs of buffers agreeing on a prefix", "anchors": ["src/genieutils/common.py:ByteHandler", "src/genieutils/datfile.py:DatFile.from_bytes"]}
{"id": "C41", "title": "Saving rounds floats and changes nothing else", "statement": "For every object of the right shape, of a version other than UNDEFINED, that can be saved and whose strings do not end in NUL, with arbitrary 64-bit floats (also NaN, and numbers beyond the binary32 range where the field is written with write_float, which stores an infinity), save then load returns the object with every float replaced by its nearest binary32 value (ties to even) and every other field unchanged; saving that gives the same bytes.", "quantifier": "all objects with arbitrary doubles in their float fields", "why_tests_cant": "2^64 doubles per float field, unbounded objects", "anchors": ["src/genieutils/datatypes.py:Float", "src/genieutils/datfile.py:DatFile"]}
{"id": "C42", "title": "The text printed by dat-to-json is JSON and says everything", "statement": "For every file that loads, the text printed by dat-to-json is printable ASCII ending in a newline. If all floats in the file are finite, a JSON reader gets from it exactly the dictionary of the loaded object (names in order, integers, floats, the int 0 for invulnerability_level before 8.4, strings with any Unicode characters, null for empty slots), no object in it has two members of the same name, and two files with the same text hold the same object; if some float is NaN or infinite the text is not JSON, but json.loads of Python, which also takes the words NaN, Infinity and -Infinity, still gets back that dictionary, except for the sign and payload of a NaN. The tool fails exactly when loading fails. Needed of Python float repr: it is a float literal that reads back as the same float.", "quantifier": "all files, all contents of strings and floats, every float repr that reads back", "why_tests_cant": "unbounded trees, arbitrary strings with escapes and surrogate pairs", "anchors": ["src/genieutils/scripts.py:dat_to_json", "src/genieutils/datfile.py:DatFile.parse"]}
{"id": "C43", "title": "Saves and loads that run at the same time", "statement": "For any number of threads or processes that each save or load one file, under every schedule of their operating-system calls: a file nobody saves to keeps its contents, and loading it gives what it would give alone; a file that only one of them saves to goes through exactly the states it would go through alone, so that after the save returned it loads as the saved object; a file that several save the same bytes to holds these bytes once all of them returned; loading a file while it is being saved again unchanged returns its object or raises. Two saves of different objects to one file can both return and leave an object nobody saved, and a load during a save can return an object that was never in the file.", "quantifier": "all schedules of any number of saves and loads, all objects, all sizes of the single writes and reads", "why_tests_cant": "the number of schedules is unbounded; a test sees one of them", "anchors": ["src/genieutils/datfile.py:DatFile.parse", "src/genieutils/datfile.py:DatFile.save"]}
{"id": "C44", "title": "The parts of a file can be put together freely", "statement": "A file object of a known version saves and loads as itself iff each of its records (terrain restriction, player colour, sound, present graphic, terrain block, random maps, effect, unit header, civilization, tech, tech tree) does so on its own, the counts of the lists can be written (at most 32767 entries, for effects and unit headers at most 2147483647), the numbers fit, the two pointer lists are as long as the list of terrain restrictions, and all terrain restrictions are for one number of terrains. So in any file the records of a list can be removed, reordered, repeated or replaced by records of another file of the same version. The same for the lists inside records: sound items, effect commands, deltas, tasks, attacks, armours, damage graphics, units, research locations, train locations, and the four lists of the tech tree.", "quantifier": "all objects, all lists of records put into them", "why_tests_cant": "all pairs of objects and all lists; a round-trip test sees unedited files only", "anchors": ["src/genieutils/datfile.py:DatFile", "src/genieutils/common.py:GenieClass.write_class_array", "src/genieutils/common.py:ByteHandler.read_class_array"]}
{"id": "C45", "title": "When two loaded files compare equal", "statement": "Two separately loaded file objects compare equal with == iff no float in them is NaN and they agree in every field except that 0.0 and -0.0 count as equal; so loading the same bytes twice, or saving and loading again, gives an equal object iff there is no NaN. Equal objects without negative zeros are the same in every field and come from the same bytes (when nothing was lost in loading). Equal objects are saved both or neither, with the same number of bytes, which differ at most in the sign bits of zeros. == is symmetric and transitive, and reflexive exactly without NaN.", "quantifier": "all pairs of objects", "why_tests_cant": "all pairs of objects of unbounded size with all float values; a test compares a few files without NaN or negative zeros", "anchors": ["src/genieutils/datfile.py:DatFile", "src/genieutils/unit.py:Unit", "src/genieutils/datatypes.py:Float"]}
{"id": "C46", "title": "The source text saves as the model says", "statement": "For every object graph in memory that represents a record (each attribute holding a value of its declared kind), evaluating x.to_bytes(version), for a whole file x.to_bytes(), by the rules of Python, statement by statement from the source text of the library, returns exactly the bytes or raises exactly the exception of the typed functions all the other properties are about; it never hits a TypeError, NameError or the recursion limit (20 frames suffice). This holds whether or not objects are shared between several places of the graph.", "quantifier": "all records of all 46 classes, all heaps, all object graphs that represent them, all versions", "why_tests_cant": "ranges over all heaps and all ways of sharing objects; tests run a few unshared graphs", "anchors": ["src/genieutils/common.py:GenieClass", "src/genieutils/datfile.py:DatFile.to_bytes", "src/genieutils/unit.py:Unit.to_bytes"]}
{"id": "C47", "title": "Saving changes nothing", "statement": "After x.to_bytes() returned, every object that existed before it holds exactly what it held before; so every variable still refers to the same data and saving again gives the same bytes.", "quantifier": "all file objects in all heaps", "why_tests_cant": "every object of an unbounded heap is concerned; a test compares a few fields", "anchors": ["src/genieutils/common.py:GenieClass", "src/genieutils/datfile.py:DatFile.to_bytes"]}
{"id": "C48", "title": "Numbers and sequences of another type", "statement": "An object graph with bools where ints are declared, ints or bools where floats are declared, and tuples where lists are declared or lists where tuples are, is saved as the same bytes as the graph with values of exactly the declared types, whenever the latter can be saved.", "quantifier": "all records of all 46 classes, all object graphs with such values in any places", "why_tests_cant": "all combinations of places; a test tries a few", "anchors": ["src/genieutils/common.py:GenieClass", "src/genieutils/datatypes.py:Float", "src/genieutils/datatypes.py:Int"]}
{"id": "C49", "title": "The source text loads as the model says", "statement": "Running the text of DatFile.parse after decompression, and of from_bytes of every class, in any state of the interpreter, builds an object graph with exactly the contents the model reads (same classes, same attributes, ints, floats, strings, lists and tuples; only the invulnerability level of a creatable is the int 0 in files before version 8.4, where the model has 0.0, and a float from 8.4 on, as in the code), moves the byte handler as the model does, and changes no other object; when the model reports an exception, the same one is raised. A stack of 18 frames is enough for every file, and no TypeError, NameError or RecursionError can occur.", "quantifier": "all byte strings, all 46 classes, all versions, all heaps and byte handlers", "why_tests_cant": "no finite set of files covers every branch of every reader in every version; only two loads of real files are in the test suite", "anchors": ["src/genieutils/datfile.py:DatFile.parse", "src/genieutils/datfile.py:DatFile.from_bytes", "src/genieutils/common.py:ByteHandler", "src/genieutils/unit.py:Unit.from_bytes"]}
{"id": "C50", "title": "A loaded file shares no objects", "statement": "In the object graph that loading returns, every list and object can be reached by one path of attributes and indices only, and none of them existed before; two files that are loaded one after the other, even from the same bytes, have no list or object in common, and the second load leaves the first graph as it was.", "quantifier": "all files that load, all pairs of paths, all pairs of loads", "why_tests_cant": "aliasing of any two of thousands of objects, in any file", "anchors": ["src/genieutils/datfile.py:DatFile.from_bytes", "src/genieutils/common.py:ByteHandler.read_class_array", "src/genieutils/common.py:ByteHandler.read_class_array_with_pointers"]}
{"id": "C51", "title": "An assignment changes one attribute", "statement": "After dat.<path>.a = value, where path is any sequence of attributes and indices that leads to an object with attribute a, the graph is the loaded one with that one attribute replaced and nothing else, in this file or elsewhere, has changed; saving then writes the bytes of the record edited at that place, or raises the exception that the model reports for that record. Assigning to an attribute that the class does not declare raises AttributeError.", "quantifier": "all files that load, all paths, all attributes, all ints, floats, strings, bytes, bools and None", "why_tests_cant": "all places of all files", "anchors": ["src/genieutils/datfile.py:DatFile.save", "src/genieutils/unit.py:Unit", "src/genieutils/tech.py:Tech"]}
{"id": "C52", "title": "The source text loads what it saves, and saves what it loads", "statement": "Whatever object graph loading returns can be saved; the bytes load to the same contents, and are the bytes loaded from exactly when no information was dropped and no byte was left over. A graph that stands for a consistent file is saved to bytes that load to a new graph with the same contents, and the old one is untouched.", "quantifier": "all files that load, all object graphs that stand for consistent files", "why_tests_cant": "all files", "anchors": ["src/genieutils/datfile.py:DatFile.parse", "src/genieutils/datfile.py:DatFile.to_bytes"]}
{"id": "C53", "title": "The programs of the README", "statement": "The two example programs of the README, as written, run on any file that loads: either they raise IndexError or AttributeError because the tech, cost, unit or task is not there, or they change exactly what they say, and the file they write loads to the edited contents. Reading dat.<path> gives what the file has at that place, or IndexError or AttributeError.", "quantifier": "all files that load", "why_tests_cant": "the behaviour on files in which some civilisation lacks the unit, or the unit has no tasks", "anchors": ["README.md", "src/genieutils/datfile.py:DatFile.from_bytes", "src/genieutils/datfile.py:DatFile.to_bytes"]}
{"id": "C54", "title": "Files, from the text of parse and save", "statement": "DatFile.parse(path), as written, changes no file and returns new objects with the contents of the file, or raises what reading it raises (FileNotFoundError, a decompression error, a parse error). dat.save(path), as written, does exactly the moves of the file-system model (C27-C29): at any crash point only the target may differ, and it is what it was or a beginning of the new file; an object that cannot be saved raises before anything is touched; after it has returned the file loads to the same contents. Each README program, as written, leaves at any moment every file but its target as it was; the target holds what it held, or a beginning of the edited file, and all of it when the program ends without an exception.", "quantifier": "all file systems, all paths, all object graphs, all crash points and operating system failures", "why_tests_cant": "every crash point of every save of every object", "anchors": ["src/genieutils/datfile.py:DatFile.parse", "src/genieutils/datfile.py:DatFile.save", "README.md"]}
{"id": "C55", "title": "Scripts that load, change in place, and save", "statement": "A script that does data = DatFile.parse(p), any statements that do no input or output of their own, and data.save(q): whatever happens, no file but q changes, and q is touched only after loading, every statement and the serialisation have succeeded; if the script raises, at any statement, no file has changed; at any crash point q is what it was or a beginning of the new file. When the statements are assignments to attributes and to list items, pop, append, for loops over lists, local names for parts of the file, and conditions (comparisons, truth values, not, and), with values that are constants, int arithmetic, copies of plain attributes, copy.deepcopy of parts of the file, lists, tuples, or new objects made by the constructors of the library, the bytes written are those of the file edited as the statements say, and the script raises exactly when an index or attribute is missing or the edited file cannot be saved; if the edited file is consistent, q then loads to it. This also holds when p and q are the same file.", "quantifier": "all scripts of that shape, all file systems, all files that load, all crash points", "why_tests_cant": "there are unboundedly many scripts, and each has to be followed through every file and every crash point", "anchors": ["README.md", "src/genieutils/datfile.py:DatFile.parse", "src/genieutils/datfile.py:DatFile.save"]}
{"id": "C56", "title": "The text of dat-to-json prints the dump", "statement": "Running the text of dat_to_json (scripts.py, the command dat-to-json) with one file name as argument changes no file and prints nothing before the whole file is loaded; what is on the standard output at any moment, also when the process is killed or the output fails, is a beginning of the JSON text of the file (the dictionary of its fields in order of declaration, with the int 0 for the invulnerability level before version 8.4, indented by 2, and a newline), and all of it when the command ends without an exception; if the file is missing, cannot be decompressed or cannot be read, the command ends with that exception and prints nothing. The same for main(). If the file was written by save from an object with finite floats, a JSON reader gets all fields of that object from the output.", "quantifier": "all file names that do not start with a minus sign, all file systems, all file contents, all moments of the run, all states of the interpreter", "why_tests_cant": "the test suite does not run the command; every class has to be dumped for every content, and the output can be cut at any character", "anchors": ["src/genieutils/scripts.py:dat_to_json", "src/genieutils/scripts.py:main", "pyproject.toml"]}
{"id": "C57", "title": "Scripts and dumps that run at the same time do not disturb each other", "statement": "Any number of processes run at once, each a script that loads p, changes the record and saves it to q, or the command dat-to-json a; the operating system interleaves their openings, partial reads, partial writes, closings and prints in any order and may fail or kill any of them at any moment. If no script saves to a file that another process loads or saves, then every process is at each moment where it could be if it ran alone: the target of a script holds what it held, a beginning of the new file computed from the source as it was at the start, or all of it once the script has ended without an exception, and then loads to the changed record; each dump prints the text of its file as it was at the start; files that are nobody's target do not change. No process waits for another one: whatever has happened, a process to which no error was reported can end without any step of the others.", "quantifier": "all sets of such processes, all file systems and contents, all schedules, all partial reads and writes, all failures", "why_tests_cant": "the number of interleavings is unbounded, and the test suite runs no two processes at once", "anchors": ["README.md", "src/genieutils/datfile.py:DatFile.parse", "src/genieutils/datfile.py:DatFile.save", "src/genieutils/scripts.py:dat_to_json"]}
{"id": "C58", "title": "Deep copies and new objects", "statement": "After y = copy.deepcopy(x.p) of any part of a loaded file, y is a tree of new objects with the same contents: whatever in-place changes are then made through y leave the file as it was, and whatever is changed in the file leaves y as it was; if the whole file is copied and the copy changed, saving the file gives the bytes it gave before and saving the copy those of the changed record. Scripts that copy a unit to another place in every civilisation, or append a new EffectCommand to an effect, write exactly the file with that change, or raise IndexError when the place does not exist.", "quantifier": "all loaded files, all parts of them, all sequences of in-place changes, all heaps", "why_tests_cant": "sharing between the copy and the original would show only for the particular attribute that is shared, and only after a particular change", "anchors": ["src/genieutils/common.py:GenieClass", "src/genieutils/datfile.py:DatFile.parse", "src/genieutils/datfile.py:DatFile.to_bytes", "src/genieutils/effect.py:EffectCommand", "src/genieutils/civ.py:Civ"]}
{"id": "C59", "title": "The primitive types, the versions and ByteHandler, called as written", "statement": "A user calling the helper classes directly gets: Int.from_bytes(b[, signed=s]) the little-endian two's complement value (signed by default); Int.to_bytes(z[, length=k][, signed=s]) exactly k bytes (2, signed by default) or OverflowError; each undoes the other. Float.to_bytes(x) four bytes holding the nearest single or an infinity, Float.from_bytes(b) the number of the four bytes or struct.error, with every pattern but a signalling NaN given back. String.to_bytes(s[, length=k]) the UTF-8 text padded with NULs, never cut, String.from_bytes(b) the text without trailing NULs or UnicodeDecodeError. Version(s) the member with that string or ValueError, and <, <=, >, >= the order of the version numbers. Each reader of a ByteHandler on any bytes at any offset returns the value of the next bytes, moves the offset by exactly the size read (also past the end), creates at most the list it returns and touches nothing else.", "quantifier": "all byte strings, integers, floats, texts, lengths, versions, offsets and heaps", "why_tests_cant": "default arguments and boundaries matter for every value and length; unit tests sample a few", "anchors": ["src/genieutils/datatypes.py:Int", "src/genieutils/datatypes.py:Float", "src/genieutils/datatypes.py:String", "src/genieutils/versions.py:Version", "src/genieutils/common.py:ByteHandler"]}
{"id": "C60", "title": "Two loaded objects compared with ==", "statement": "For any two objects of the library that stand for the contents x and y and share no part (two loads, the second changed or not, a load and a reload of what was saved, a file and its deep copy after any changes, two parts of one file or of two, such as the units of two civilisations), v == w raises nothing and is True exactly if their contents are equal as in C45: neither has a NaN and they agree in every field but for the sign of zeros; for each of the 46 classes. Loading the same bytes twice gives two different objects that are equal iff there is no NaN; equal objects read without loss from two files (no negative zeros) come from the same bytes. Objects of two classes are never equal, even with the same fields (ResourceCost and ResearchResourceCost); an object is always equal to itself, even with a NaN in it; a list never equals a tuple, and 0 equals 0.0 (which matters where an old file has the integer 0 for a float).", "quantifier": "all contents of all 46 classes, all heaps in which they stand, all data files, all changes made to a copy", "why_tests_cant": "equality is over every field of a deep graph; a test compares a few graphs and cannot show that no difference is missed", "anchors": ["src/genieutils/datfile.py:DatFile", "src/genieutils/unit.py:Unit", "src/genieutils/civ.py:Civ", "src/genieutils/tech.py:ResearchResourceCost", "src/genieutils/unit.py:Creatable.from_bytes"]}
