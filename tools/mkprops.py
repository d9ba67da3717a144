#!/usr/bin/env python3
"""Writes /verif/properties.jsonl (one property per line)."""
import json, sys
P=[]
def p(id,title,statement,quantifier,why,anchors):
    P.append(dict(id=id,title=title,statement=statement,quantifier=quantifier,why_tests_cant=why,anchors=anchors))
D='src/genieutils/'
p('C01','Save then load returns the same data file',
  'For every dat object that satisfies the documented well-formedness conditions (integers in the range of their on-disk width, floats representable as binary32, strings without trailing NUL, list lengths that match their on-disk counts), in every supported file version, to_bytes() succeeds and from_bytes() of the result returns an object equal to the original in every field, having consumed exactly the bytes written.',
  'all well-formed dat objects, all ten file versions, any number and size of contained objects',
  'the object space is unbounded (lists of any length, 2^32 values per field, ten versions); the repo test only re-encodes whatever .dat files are at hand',
  [D+'datfile.py:DatFile.from_bytes',D+'datfile.py:DatFile.to_bytes'])
p('C02','The well-formedness conditions are exact',
  'An object survives save-and-load unchanged if and only if it satisfies the well-formedness conditions, and those objects are exactly the ones that loading some byte string can produce.',
  'all dat objects (well-formed or not) and all byte strings',
  'a claim about every object outside a set as well as inside it',
  [D+'datfile.py:DatFile.from_bytes',D+'datfile.py:DatFile.to_bytes',D+'unit.py:Unit'])
p('C03','Load, save, load is a fixpoint on arbitrary input',
  'For every byte string, valid or damaged, if from_bytes() returns an object then to_bytes() of that object succeeds and from_bytes() of the re-encoded bytes returns the identical object; further save/load cycles change nothing.',
  'all byte strings of any length',
  'ranges over all byte strings including malformed ones',
  [D+'datfile.py:DatFile.from_bytes',D+'datfile.py:DatFile.to_bytes',D+'common.py:ByteHandler'])
p('C04','Byte-exact re-encoding',
  'If loading meets none of the enumerated information-losing situations (a read past the end, a debug string ending in NUL, a negative element count, a presence pointer other than 0/1, a signalling NaN, a terrain count with no terrain restrictions) and consumes the whole input, then to_bytes() returns exactly the input bytes; and conversely, if to_bytes() returns the input bytes then none of the situations occurred and everything was consumed.',
  'all byte strings that load',
  'the repo test checks this for a handful of game files only; the claim is for every canonical file',
  [D+'common.py:ByteHandler',D+'datfile.py:DatFile',D+'civ.py:Civ.unit_pointers'])
p('C05','Decoding is self-delimiting and position independent',
  'Decoding any record from bytes written by its encoder gives the same result wherever the bytes sit in the buffer and whatever precedes or follows them, and advances the cursor by exactly the number of bytes written; trailing bytes after a whole file are ignored.',
  'all records, all surrounding byte strings',
  'quantifies over all prefixes and suffixes',
  [D+'common.py:ByteHandler.consume_range',D+'common.py:ByteHandler.read_class'])
p('C06','Every record type round-trips on its own',
  'For each record class (sounds, graphics, terrains, random maps, effects, unit headers, tasks, units and all their sections, civs, techs, tech tree nodes), every well-formed instance encoded for any version decodes, in a reader of that version, to an equal instance.',
  'all instances of all 40 record classes, all versions',
  'unbounded instances; only whole-file comparison is tested',
  [D+'unit.py',D+'task.py',D+'tech.py',D+'graphic.py',D+'sound.py',D+'techtree.py',D+'terrainblock.py',D+'randommaps.py',D+'civ.py',D+'effect.py',D+'unitheaders.py',D+'terrainrestriction.py',D+'playercolour.py'])
p('C07','Encoded bytes follow the file-format tables',
  'For every record class and version, to_bytes() yields exactly the concatenation, in table order, of the little-endian encodings of the fields listed in an independent layout table, and it returns (rather than raising) exactly when every table cell is representable.',
  'all instances of all record classes, in all versions, representable or not',
  'round-trip tests cannot see a reader and writer that are wrong in the same way; layout is a claim for all values',
  [D+'common.py:GenieClass',D+'unit.py:Unit.to_bytes',D+'task.py:FORMAT'])
p('C08','Encoded size is determined by list lengths, string sizes and version',
  'The number of bytes written for a record depends only on the file version, the lengths of its lists, the UTF-8 sizes of its strings and which optional parts are present, according to a size formula: e.g. a task takes 67 bytes before 8.8 and 69 from 8.8.',
  'all instances for which to_bytes succeeds, all versions',
  'a claim about every instance',
  [D+'task.py:FORMAT_LENGTH',D+'unit.py:FORMAT_LENGTH'])
p('C09','Integer codec',
  'Int.to_bytes(z, n, signed) returns n bytes exactly when z fits n bytes and raises OverflowError otherwise; Int.from_bytes inverts it, and conversely re-encoding any decoded n-byte word gives those bytes back; byte i is floor(z/256^i) mod 256.',
  'all integers, all widths, both signednesses, all byte strings',
  'infinite domain in value and width',
  [D+'datatypes.py:Int'])
p('C10','UTF-8 text codec',
  'Encoding any string of Unicode scalar values and decoding gives it back; decoding any byte string either raises or gives a string of scalar values that re-encodes to exactly those bytes; surrogates are rejected when encoding.',
  'all strings, all byte strings',
  'infinite domain',
  [D+'datatypes.py:String'])
p('C11','Length-prefixed (debug) strings',
  'write_debug_string emits the marker 0x0A60, the 16-bit UTF-8 length and the text; read_debug_string returns the text if it does not end in NUL, strips exactly the trailing NULs otherwise, raises AssertionError on any other marker, and strings over 65535 encoded bytes raise OverflowError.',
  'all strings, all byte strings',
  'infinite domain including strings containing NUL and multi-byte text',
  [D+'common.py:GenieClass.write_debug_string',D+'common.py:ByteHandler.read_debug_string'])
p('C12','Fixed-length strings',
  'write_string(n, s) emits s padded with NUL to exactly n bytes when its encoding has at most n bytes, and read_string(n) returns s when s does not end in NUL; a longer string is emitted in full (more than n bytes), neither truncated nor rejected.',
  'all lengths, all strings',
  'infinite domain',
  [D+'datatypes.py:String.to_bytes',D+'common.py:GenieClass.write_string',D+'common.py:ByteHandler.read_string'])
p('C13','Float storage is exact for binary32 values and correctly rounded otherwise',
  'Every non-signalling 4-byte pattern read as a float is written back as the same 4 bytes; a Python float survives a write/read cycle iff it is a binary32 value; any other finite float within range is stored as a nearest binary32 value, ties to even.',
  'all 2^32 patterns and all 2^64 Python floats',
  'domain far too large to enumerate in a test, and correctness of rounding is a for-all claim',
  [D+'datatypes.py:Float'])
p('C14','Float overflow: exception in struct-packed records, infinity elsewhere',
  'A finite float too large for binary32 makes struct-packed records (tasks, unit headers, creatable, ...) raise OverflowError, while write_float stores an infinity of the same sign without any error; NaN and infinities are always accepted.',
  'all Python floats',
  'boundary of a 2^64 domain',
  [D+'datatypes.py:Float.to_bytes',D+'task.py:Task.to_bytes_84'])
p('C15','struct formats and their declared lengths',
  'For every format string used by the library the declared length equals the packed size, packing any in-range values yields that many bytes, unpacking them returns the values, and unpacking any buffer of that size then packing returns the buffer (quiet floats); buffers of any other size raise struct.error.',
  'all value tuples and buffers for every format',
  'values are unbounded; PROJECTILE_FORMAT and the 8.4/8.8 formats have no length test at all',
  [D+'task.py:FORMAT',D+'unit.py:FORMAT',D+'unit.py:PROJECTILE_FORMAT'])
p('C16','Version order and lookup',
  'Version comparison is a total order that agrees with the numeric version, UNDEFINED is below every real version, and version lookup accepts exactly the enumerated version strings, mapping each to the version whose string it is.',
  'all pairs and triples of versions, all strings',
  'lookup ranges over all strings; order laws over all pairs/triples',
  [D+'versions.py:Version'])
p('C17','Fields absent from old versions load with fixed defaults and do not affect the bytes written for them',
  'Loading a record in a version that does not store a field always gives the documented default (task enabled -1, combat damage reflection 0.0 / friendly fire 1.0 / interrupt frame -1 / garrison firepower 0.0 / second attack graphic -1, the nine 8.4-only creatable fields, hot key 16000), and writing for that version produces the same bytes whatever those fields hold.',
  'all byte strings and all record values, all versions',
  'for all inputs and all values of the ignored fields',
  [D+'task.py:Task.from_bytes_84',D+'unit.py:Type50.from_bytes',D+'unit.py:Creatable.from_bytes_78',D+'unit.py:TrainLocation.from_bytes_84'])
p('C18','Changing the version of a file, in particular upgrading to 8.8',
  'Taking any object loaded from (or valid for) any version, setting its version to 8.8, saving and loading gives the same object except that the hot_key of every unit without a creatable section becomes 16000; nothing else changes. For any other target version the result is the explicitly specified conversion, provided that every unit has a number of drop sites and train locations that the target version can store.',
  'all well-formed dat objects, all pairs of versions',
  'all objects; conversion is not tested at all in the repo',
  [D+'unit.py:Unit.from_bytes_88',D+'unit.py:Unit.to_bytes_88',D+'tech.py:Tech.to_bytes_88',D+'task.py:Task.to_bytes_88'])
p('C19','Downgrading from 8.8 to 8.4',
  'Saving an 8.8 object as 8.4 keeps exactly the first train location and first research location of each unit and tech (a tech with none gets the fixed placeholder), sets each task to enabled -1, keeps every other field, and raises IndexError iff some written creatable section has no train location.',
  'all well-formed 8.8 dat objects',
  'all objects; conversion is untested',
  [D+'unit.py:Creatable.to_bytes_84',D+'tech.py:Tech.to_bytes_84',D+'unit.py:Unit.to_bytes_84'])
p('C20','Hot key coherence of loaded units',
  'Every loaded unit has: before 8.8, if it has a creatable section, exactly one train location whose hot key equals the unit hot key; from 8.8, hot_key equal to the first train location hot key, or 16000 if there is none.',
  'all byte strings, all versions',
  'all inputs',
  [D+'unit.py:Unit.from_bytes_84',D+'unit.py:Unit.from_bytes_88'])
p('C21','Unit sections are determined by the unit type',
  'In every loaded unit a section (speed, dead_fish, bird, type_50, projectile, creatable, building) is present iff the unit type calls for it (types 20-, 30-, 40-, 50-, =60, 70-, =80, none for 90); when writing, sections the type does not call for are ignored.',
  'all byte strings; all unit objects',
  'all inputs and all type bytes',
  [D+'unit.py:Unit.from_bytes_84',D+'unit.py:Unit.to_bytes_84',D+'common.py:UnitType'])
p('C22','Empty slots keep their positions',
  'Loading and saving preserve which positions of the graphics list and of each civ units list are empty: slot i is None after a round trip iff it was None before, and a loaded slot is None iff its stored pointer is zero.',
  'all lists with any pattern of empty slots, all pointer values',
  'unbounded patterns',
  [D+'civ.py:Civ.unit_pointers',D+'datfile.py:DatFile.graphic_pointers',D+'common.py:ByteHandler.read_class_array_with_pointers'])
p('C23','Out-of-range values never wrap',
  'If any integer field that is written is outside the range of its on-disk width, to_bytes() raises instead of writing a wrapped or truncated value; equivalently a returned encoding has every written integer in range and stored as itself.',
  'all objects, all fields, all integers',
  'hundreds of fields times an infinite domain',
  [D+'common.py:GenieClass.write_int_8',D+'common.py:GenieClass.write_int_16',D+'common.py:GenieClass.write_int_32',D+'unit.py:Unit.to_bytes'])
p('C24','List counts that do not fit raise',
  'A list whose length exceeds its count field (255 for tech-tree and damage-graphic counts, 32767 for 16-bit counts) makes to_bytes() raise; it is never written with a wrong count.',
  'lists of every length',
  'unbounded lengths',
  [D+'techtree.py:TechTree.to_bytes',D+'effect.py:Effect.to_bytes',D+'civ.py:Civ.to_bytes',D+'unit.py:Unit.to_bytes_84'])
p('C25','Consistency assertions',
  'to_bytes() raises AssertionError when a terrain restriction has different numbers of multipliers and graphics, when the two random-map tables differ in length, or when the terrain pointer tables differ in length from the restrictions; and for no other reason.',
  'all objects',
  'all shapes',
  [D+'terrainrestriction.py:TerrainRestriction.to_bytes',D+'randommaps.py:RandomMaps.to_bytes',D+'datfile.py:DatFile.to_bytes'])
p('C26','Unchecked shape requirements (silent corruption)',
  'The following mistakes are not detected by to_bytes(): whenever every single number and string of the file can be stored it returns bytes, and they do not load back to the same object: terrain count other than 200, tile size count other than 19, wrong lengths of the fixed tuples of terrains, graphics, units (also when two wrong lengths of a unit cancel out), unit sections, techs and the tech tree, ragged terrain restrictions, map size fields differing from their lists, graphic angle sounds inconsistent with angle_count/angle_sounds_used, drop sites other than 3 before 7.8, a unit header marked existing without a task list or the reverse, a unit whose type calls for a missing section or has one it should not, a unit hot key differing from that of its first train location, several train or research locations before 8.8, non-default values in fields the version does not store, a file version string UNDEFINED.',
  'for each mistake, every object exhibiting it (with otherwise encodable fields)',
  'absence of a check is a for-all claim about the encoder',
  [D+'randommaps.py:MapInfo.to_bytes',D+'graphic.py:Graphic.to_bytes',D+'unit.py:Bird.to_bytes',D+'unitheaders.py:UnitHeaders.to_bytes',D+'datfile.py:DatFile.to_bytes'])
p('C27','save() then parse() through the file system',
  'For every well-formed object, every path and every file-system state, save(path) followed by parse(path) returns an equal object, provided raw inflate inverts raw deflate; all other files are untouched, and saving twice is the same as saving once.',
  'all objects, paths, file-system contents, all compressors satisfying inflate(deflate x) = x',
  'all objects and file-system states',
  [D+'datfile.py:DatFile.parse',D+'datfile.py:DatFile.save'])
p('C28','A failing save leaves the file system unchanged',
  'If serialisation raises for any reason, save() raises the same exception and no file, in particular not the target, is modified.',
  'all objects, paths, file-system states',
  'all failing objects',
  [D+'datfile.py:DatFile.save'])
p('C29','Crash during save',
  'If the process dies during save(), the target holds either its old content or a prefix of the new compressed content (possibly empty), other files are untouched; save is not atomic: for every existing non-empty target there is a crash point at which the old content is already gone and the new not complete.',
  'all crash points, objects, file-system states',
  'crash points cannot be enumerated by tests',
  [D+'datfile.py:DatFile.save'])
p('C30','Truncated input',
  'Reading past the end of the data never raises for integer fields: missing bytes read as a shorter integer (0 if nothing is left); float and struct-packed fields raise struct.error, a string whose marker is cut off raises AssertionError and one whose text is cut off is shortened. Hence a file cut anywhere in its closing seven integers and tech tree is accepted; a file cut at a section boundary behind the terrain block is accepted and every later section is silently empty; whatever follows a section boundary, if the file is accepted the sections before it are intact; and a file cut at or before the end of the terrain block is accepted exactly if the cut is in the last 39 bytes of the terrain block (its closing integers), otherwise it raises.',
  'all byte strings and all cut points',
  'every cut point of every file',
  [D+'common.py:ByteHandler.consume_range',D+'datatypes.py:Float',D+'datfile.py:DatFile.from_bytes'])
p('C31','Locality of edits',
  'Changing one fixed-width field of one record in a well-formed object changes only the bytes of that field in the saved file: prefix, suffix and total length are identical.',
  'all objects, all records reachable in the file, all new values',
  'all objects and edits',
  [D+'datfile.py:DatFile.to_bytes',D+'tech.py:Tech.to_bytes'])
p('C32','README edits do what they say',
  'Setting techs[i].resource_costs[j].amount and saving gives a file that loads as the original with exactly that amount changed and nothing else; popping the last task of unit k of every civ gives a file that loads as the original without those tasks, shorter by exactly one task record per civ.',
  'all well-formed objects, indices and amounts; all civ lists',
  'all objects',
  ['README.md',D+'tech.py:ResearchResourceCost',D+'unit.py:Bird'])
p('C33','Distinct objects have distinct encodings',
  'Two well-formed objects of the same version with the same bytes are equal; moreover no encoding is a proper prefix of another.',
  'all pairs of well-formed objects',
  'pairs of unbounded objects',
  [D+'datfile.py:DatFile.to_bytes'])
p('C34','The JSON dump is complete',
  'dataclasses.asdict of a loaded file contains every field of every record under its own name in declaration order: two objects with the same dump are equal. (Of a file older than 8.4 the loaded object, and so its dump, has the int 0 for invulnerability_level; in newer files it is a float. The version tells which.)',
  'all pairs of objects',
  'all objects',
  [D+'scripts.py:dat_to_json'])
p('C35','DatFile version handling',
  'DatFile.to_bytes ignores its version argument and uses the version stored in the object for every contained record; any version string other than the enumerated ones makes it raise ValueError, as does loading a header that is not an enumerated version.',
  'all objects, all version strings, all header bytes',
  'all strings',
  [D+'datfile.py:DatFile.to_bytes',D+'datfile.py:DatFile.from_bytes'])
p('C36','Host byte order',
  'Float.to_bytes/from_bytes use the byte order of the host: on little-endian hosts the stored bytes are the little-endian binary32 word; on a big-endian host they are reversed, so files written there differ, although write/read on one host is still the identity.',
  'all floats, both byte orders',
  'needs a big-endian host to observe',
  [D+'datatypes.py:Float'])
p('C37','Array readers',
  'Each read_*_array(size) returns max(0, size) elements in stream order, equal to size successive single reads, and advances the cursor by the sum of their sizes; the fixed-arity variants agree with the sized variant.',
  'all sizes, all buffers, all element readers',
  'unbounded sizes',
  [D+'common.py:ByteHandler.read_class_array',D+'common.py:ByteHandler.read_int_8_array'])
p('C38','Each listed loss is a real loss',
  'For each of the situations excluded in C04 there is an input that loads without error, exhibits only that situation, and is not reproduced by to_bytes().',
  'existence, per situation',
  'shows C04 cannot be weakened; gives concrete inputs',
  [D+'common.py:ByteHandler',D+'datatypes.py:String.from_bytes'])
p('C39','Which exceptions loading and saving can raise',
  'Loading raises only AssertionError, UnicodeDecodeError, ValueError (exactly for an unknown version string) or struct.error, and saving only AssertionError, IndexError, OverflowError, UnicodeEncodeError, ValueError or struct.error, each only in its documented circumstances: for example UnicodeEncodeError only if some string cannot be encoded, ValueError only for an unknown version string; records made of integers only never raise when loaded.',
  'all byte strings and all objects',
  'a negative claim over every input',
  [D+'common.py',D+'datatypes.py',D+'datfile.py'])
p('C40','Unread data never matters',
  'What a reader returns depends only on the bytes it reads: bytes behind the end of what is read can be replaced, extended or cut without changing the result.',
  'all byte strings, all records, all changes behind the end of what is read',
  'quantifies over all pairs of buffers agreeing on a prefix',
  [D+'common.py:ByteHandler',D+'datfile.py:DatFile.from_bytes'])
p('C41','Saving rounds floats and changes nothing else',
  'For every object of the right shape, of a version other than UNDEFINED, that can be saved and whose strings do not end in NUL, with arbitrary 64-bit floats (also NaN, and numbers beyond the binary32 range where the field is written with write_float, which stores an infinity), save then load returns the object with every float replaced by its nearest binary32 value (ties to even) and every other field unchanged; saving that gives the same bytes.',
  'all objects with arbitrary doubles in their float fields',
  '2^64 doubles per float field, unbounded objects',
  [D+'datatypes.py:Float',D+'datfile.py:DatFile'])
p('C42','The text printed by dat-to-json is JSON and says everything',
  'For every file that loads, the text printed by dat-to-json is printable ASCII ending in a newline. If all floats in the file are finite, a JSON reader gets from it exactly the dictionary of the loaded object (names in order, integers, floats, the int 0 for invulnerability_level before 8.4, strings with any Unicode characters, null for empty slots), no object in it has two members of the same name, and two files with the same text hold the same object; if some float is NaN or infinite the text is not JSON, but json.loads of Python, which also takes the words NaN, Infinity and -Infinity, still gets back that dictionary, except for the sign and payload of a NaN. The tool fails exactly when loading fails. Needed of Python float repr: it is a float literal that reads back as the same float.',
  'all files, all contents of strings and floats, every float repr that reads back',
  'unbounded trees, arbitrary strings with escapes and surrogate pairs',
  ['src/genieutils/scripts.py:dat_to_json',D+'datfile.py:DatFile.parse'])
p('C43','Saves and loads that run at the same time',
  'For any number of threads or processes that each save or load one file, under every schedule of their operating-system calls: a file nobody saves to keeps its contents, and loading it gives what it would give alone; a file that only one of them saves to goes through exactly the states it would go through alone, so that after the save returned it loads as the saved object; a file that several save the same bytes to holds these bytes once all of them returned; loading a file while it is being saved again unchanged returns its object or raises. Two saves of different objects to one file can both return and leave an object nobody saved, and a load during a save can return an object that was never in the file.',
  'all schedules of any number of saves and loads, all objects, all sizes of the single writes and reads',
  'the number of schedules is unbounded; a test sees one of them',
  [D+'datfile.py:DatFile.parse',D+'datfile.py:DatFile.save'])
p('C44','The parts of a file can be put together freely',
  'A file object of a known version saves and loads as itself iff each of its records (terrain restriction, player colour, sound, present graphic, terrain block, random maps, effect, unit header, civilization, tech, tech tree) does so on its own, the counts of the lists can be written (at most 32767 entries, for effects and unit headers at most 2147483647), the numbers fit, the two pointer lists are as long as the list of terrain restrictions, and all terrain restrictions are for one number of terrains. So in any file the records of a list can be removed, reordered, repeated or replaced by records of another file of the same version. The same for the lists inside records: sound items, effect commands, deltas, tasks, attacks, armours, damage graphics, units, research locations, train locations, and the four lists of the tech tree.',
  'all objects, all lists of records put into them',
  'all pairs of objects and all lists; a round-trip test sees unedited files only',
  [D+'datfile.py:DatFile',D+'common.py:GenieClass.write_class_array',D+'common.py:ByteHandler.read_class_array'])
p('C45','When two loaded files compare equal',
  'Two separately loaded file objects compare equal with == iff no float in them is NaN and they agree in every field except that 0.0 and -0.0 count as equal; so loading the same bytes twice, or saving and loading again, gives an equal object iff there is no NaN. Equal objects without negative zeros are the same in every field and come from the same bytes (when nothing was lost in loading). Equal objects are saved both or neither, with the same number of bytes, which differ at most in the sign bits of zeros. == is symmetric and transitive, and reflexive exactly without NaN.',
  'all pairs of objects',
  'all pairs of objects of unbounded size with all float values; a test compares a few files without NaN or negative zeros',
  [D+'datfile.py:DatFile',D+'unit.py:Unit',D+'datatypes.py:Float'])
p('C46','The source text saves as the model says',
  'For every object graph in memory that represents a record (each attribute holding a value of its declared kind), evaluating x.to_bytes(version), for a whole file x.to_bytes(), by the rules of Python, statement by statement from the source text of the library, returns exactly the bytes or raises exactly the exception of the typed functions all the other properties are about; it never hits a TypeError, NameError or the recursion limit (20 frames suffice). This holds whether or not objects are shared between several places of the graph.',
  'all records of all 46 classes, all heaps, all object graphs that represent them, all versions',
  'ranges over all heaps and all ways of sharing objects; tests run a few unshared graphs',
  [D+'common.py:GenieClass',D+'datfile.py:DatFile.to_bytes',D+'unit.py:Unit.to_bytes'])
p('C47','Saving changes nothing',
  'After x.to_bytes() returned, every object that existed before it holds exactly what it held before; so every variable still refers to the same data and saving again gives the same bytes.',
  'all file objects in all heaps',
  'every object of an unbounded heap is concerned; a test compares a few fields',
  [D+'common.py:GenieClass',D+'datfile.py:DatFile.to_bytes'])
p('C48','Numbers and sequences of another type',
  'An object graph with bools where ints are declared, ints or bools where floats are declared, and tuples where lists are declared or lists where tuples are, is saved as the same bytes as the graph with values of exactly the declared types, whenever the latter can be saved.',
  'all records of all 46 classes, all object graphs with such values in any places',
  'all combinations of places; a test tries a few',
  [D+'common.py:GenieClass',D+'datatypes.py:Float',D+'datatypes.py:Int'])
p('C49','The source text loads as the model says',
  'Running the text of DatFile.parse after decompression, and of from_bytes of every class, in any state of the interpreter, builds an object graph with exactly the contents the model reads (same classes, same attributes, ints, floats, strings, lists and tuples; only the invulnerability level of a creatable is the int 0 in files before version 8.4, where the model has 0.0, and a float from 8.4 on, as in the code), moves the byte handler as the model does, and changes no other object; when the model reports an exception, the same one is raised. A stack of 18 frames is enough for every file, and no TypeError, NameError or RecursionError can occur.',
  'all byte strings, all 46 classes, all versions, all heaps and byte handlers',
  'no finite set of files covers every branch of every reader in every version; only two loads of real files are in the test suite',
  [D+'datfile.py:DatFile.parse',D+'datfile.py:DatFile.from_bytes',D+'common.py:ByteHandler',D+'unit.py:Unit.from_bytes'])
p('C50','A loaded file shares no objects',
  'In the object graph that loading returns, every list and object can be reached by one path of attributes and indices only, and none of them existed before; two files that are loaded one after the other, even from the same bytes, have no list or object in common, and the second load leaves the first graph as it was.',
  'all files that load, all pairs of paths, all pairs of loads',
  'aliasing of any two of thousands of objects, in any file',
  [D+'datfile.py:DatFile.from_bytes',D+'common.py:ByteHandler.read_class_array',D+'common.py:ByteHandler.read_class_array_with_pointers'])
p('C51','An assignment changes one attribute',
  'After dat.<path>.a = value, where path is any sequence of attributes and indices that leads to an object with attribute a, the graph is the loaded one with that one attribute replaced and nothing else, in this file or elsewhere, has changed; saving then writes the bytes of the record edited at that place, or raises the exception that the model reports for that record. Assigning to an attribute that the class does not declare raises AttributeError.',
  'all files that load, all paths, all attributes, all ints, floats, strings, bytes, bools and None',
  'all places of all files',
  [D+'datfile.py:DatFile.save',D+'unit.py:Unit',D+'tech.py:Tech'])
p('C52','The source text loads what it saves, and saves what it loads',
  'Whatever object graph loading returns can be saved; the bytes load to the same contents, and are the bytes loaded from exactly when no information was dropped and no byte was left over. A graph that stands for a consistent file is saved to bytes that load to a new graph with the same contents, and the old one is untouched.',
  'all files that load, all object graphs that stand for consistent files',
  'all files',
  [D+'datfile.py:DatFile.parse',D+'datfile.py:DatFile.to_bytes'])
p('C53','The programs of the README',
  'The two example programs of the README, as written, run on any file that loads: either they raise IndexError or AttributeError because the tech, cost, unit or task is not there, or they change exactly what they say, and the file they write loads to the edited contents. Reading dat.<path> gives what the file has at that place, or IndexError or AttributeError.',
  'all files that load',
  'the behaviour on files in which some civilisation lacks the unit, or the unit has no tasks',
  ['README.md',D+'datfile.py:DatFile.from_bytes',D+'datfile.py:DatFile.to_bytes'])
p('C54','Files, from the text of parse and save',
  'DatFile.parse(path), as written, changes no file and returns new objects with the contents of the file, or raises what reading it raises (FileNotFoundError, a decompression error, a parse error). dat.save(path), as written, does exactly the moves of the file-system model (C27-C29): at any crash point only the target may differ, and it is what it was or a beginning of the new file; an object that cannot be saved raises before anything is touched; after it has returned the file loads to the same contents. Each README program, as written, leaves at any moment every file but its target as it was; the target holds what it held, or a beginning of the edited file, and all of it when the program ends without an exception.',
  'all file systems, all paths, all object graphs, all crash points and operating system failures',
  'every crash point of every save of every object',
  [D+'datfile.py:DatFile.parse',D+'datfile.py:DatFile.save','README.md'])
p('C55','Scripts that load, change in place, and save',
  'A script that does data = DatFile.parse(p), any statements that do no input or output of their own, and data.save(q): whatever happens, no file but q changes, and q is touched only after loading, every statement and the serialisation have succeeded; if the script raises, at any statement, no file has changed; at any crash point q is what it was or a beginning of the new file. When the statements are assignments to attributes and to list items, pop, append, for loops over lists, local names for parts of the file, and conditions (comparisons, truth values, not, and), with values that are constants, int arithmetic, copies of plain attributes, copy.deepcopy of parts of the file, lists, tuples, or new objects made by the constructors of the library, the bytes written are those of the file edited as the statements say, and the script raises exactly when an index or attribute is missing or the edited file cannot be saved; if the edited file is consistent, q then loads to it. This also holds when p and q are the same file.',
  'all scripts of that shape, all file systems, all files that load, all crash points',
  'there are unboundedly many scripts, and each has to be followed through every file and every crash point',
  ['README.md',D+'datfile.py:DatFile.parse',D+'datfile.py:DatFile.save'])
p('C56','The text of dat-to-json prints the dump',
  'Running the text of dat_to_json (scripts.py, the command dat-to-json) with one file name as argument changes no file and prints nothing before the whole file is loaded; what is on the standard output at any moment, also when the process is killed or the output fails, is a beginning of the JSON text of the file (the dictionary of its fields in order of declaration, with the int 0 for the invulnerability level before version 8.4, indented by 2, and a newline), and all of it when the command ends without an exception; if the file is missing, cannot be decompressed or cannot be read, the command ends with that exception and prints nothing. The same for main(). If the file was written by save from an object with finite floats, a JSON reader gets all fields of that object from the output.',
  'all file names that do not start with a minus sign, all file systems, all file contents, all moments of the run, all states of the interpreter',
  'the test suite does not run the command; every class has to be dumped for every content, and the output can be cut at any character',
  [D+'scripts.py:dat_to_json',D+'scripts.py:main','pyproject.toml'])
p('C57','Scripts and dumps that run at the same time do not disturb each other',
  'Any number of processes run at once, each a script that loads p, changes the record and saves it to q, or the command dat-to-json a; the operating system interleaves their openings, partial reads, partial writes, closings and prints in any order and may fail or kill any of them at any moment. If no script saves to a file that another process loads or saves, then every process is at each moment where it could be if it ran alone: the target of a script holds what it held, a beginning of the new file computed from the source as it was at the start, or all of it once the script has ended without an exception, and then loads to the changed record; each dump prints the text of its file as it was at the start; files that are nobody\'s target do not change. No process waits for another one: whatever has happened, a process to which no error was reported can end without any step of the others.',
  'all sets of such processes, all file systems and contents, all schedules, all partial reads and writes, all failures',
  'the number of interleavings is unbounded, and the test suite runs no two processes at once',
  ['README.md',D+'datfile.py:DatFile.parse',D+'datfile.py:DatFile.save',D+'scripts.py:dat_to_json'])
p('C58','Deep copies and new objects',
  'After y = copy.deepcopy(x.p) of any part of a loaded file, y is a tree of new objects with the same contents: whatever in-place changes are then made through y leave the file as it was, and whatever is changed in the file leaves y as it was; if the whole file is copied and the copy changed, saving the file gives the bytes it gave before and saving the copy those of the changed record. Scripts that copy a unit to another place in every civilisation, or append a new EffectCommand to an effect, write exactly the file with that change, or raise IndexError when the place does not exist.',
  'all loaded files, all parts of them, all sequences of in-place changes, all heaps',
  'sharing between the copy and the original would show only for the particular attribute that is shared, and only after a particular change',
  [D+'common.py:GenieClass',D+'datfile.py:DatFile.parse',D+'datfile.py:DatFile.to_bytes',D+'effect.py:EffectCommand',D+'civ.py:Civ'])
p('C59','The primitive types, the versions and ByteHandler, called as written',
  'A user calling the helper classes directly gets: Int.from_bytes(b[, signed=s]) the little-endian two\'s complement value (signed by default); Int.to_bytes(z[, length=k][, signed=s]) exactly k bytes (2, signed by default) or OverflowError; each undoes the other. Float.to_bytes(x) four bytes holding the nearest single or an infinity, Float.from_bytes(b) the number of the four bytes or struct.error, with every pattern but a signalling NaN given back. String.to_bytes(s[, length=k]) the UTF-8 text padded with NULs, never cut, String.from_bytes(b) the text without trailing NULs or UnicodeDecodeError. Version(s) the member with that string or ValueError, and <, <=, >, >= the order of the version numbers. Each reader of a ByteHandler on any bytes at any offset returns the value of the next bytes, moves the offset by exactly the size read (also past the end), creates at most the list it returns and touches nothing else.',
  'all byte strings, integers, floats, texts, lengths, versions, offsets and heaps',
  'default arguments and boundaries matter for every value and length; unit tests sample a few',
  [D+'datatypes.py:Int',D+'datatypes.py:Float',D+'datatypes.py:String',D+'versions.py:Version',D+'common.py:ByteHandler'])
p('C60','Two loaded objects compared with ==',
  'For any two objects of the library that stand for the contents x and y and share no part (two loads, the second changed or not, a load and a reload of what was saved, a file and its deep copy after any changes, two parts of one file or of two, such as the units of two civilisations), v == w raises nothing and is True exactly if their contents are equal as in C45: neither has a NaN and they agree in every field but for the sign of zeros; for each of the 46 classes. Loading the same bytes twice gives two different objects that are equal iff there is no NaN; equal objects read without loss from two files (no negative zeros) come from the same bytes. Objects of two classes are never equal, even with the same fields (ResourceCost and ResearchResourceCost); an object is always equal to itself, even with a NaN in it; a list never equals a tuple, and 0 equals 0.0 (which matters where an old file has the integer 0 for a float).',
  'all contents of all 46 classes, all heaps in which they stand, all data files, all changes made to a copy',
  'equality is over every field of a deep graph; a test compares a few graphs and cannot show that no difference is missed',
  [D+'datfile.py:DatFile',D+'unit.py:Unit',D+'civ.py:Civ',D+'tech.py:ResearchResourceCost',D+'unit.py:Creatable.from_bytes'])
with open('/verif/properties.jsonl','w') as f:
    for x in P: f.write(json.dumps(x)+'\n')
print(len(P))
