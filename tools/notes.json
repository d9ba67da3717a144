{
 "C04": "Byte-exactness iff the ghost list of losses is empty; C38 shows each kind of loss occurs and is a real one.",
 "C14": "",
 "C18": "General theorem for any source and target version; the 8.8 special case and the exact list of what it changes follow.",
 "C27": "zlib enters as two functions; the hypothesis that inflate undoes deflate is in the statement and is met by the stored-block codec.",
 "C29": "The hypotheses on zlib (a proper prefix of a raw deflate stream does not decompress) are in the statements and are met by the stored-block codec.",
 "C30": "Cuts inside the sections between the terrain block and the closing numbers are covered by C30_sections_before (what is accepted agrees with the file before the cut section).",
 "C34": "The tree given to json.dumps, not its text."
}