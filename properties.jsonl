{"id": "C01", "title": "Element size codec round trip", "statement": "Writing a finite size L with EBML_CodedValueLength on the number of bytes chosen by EBML_CodedSizeLength (or any larger forced SizeLength up to 8) and reading the bytes back with EBML_ReadCodedSizeValue gives exactly L, the same byte count, and never the 'unknown' marker, for every 0 <= L < 2^35-1; at 2^35-1 and above without a forced length the size is silently corrupted.", "quantifier": "all finite sizes L (0..2^63-1), all forced lengths 0..8, all buffer tails", "why_tests_cant": "2^35 values times 9 forced lengths times arbitrary following bytes cannot be enumerated", "anchors": ["libebml2/ebmlmain.c:EBML_CodedValueLength", "libebml2/ebmlmain.c:EBML_CodedSizeLength", "libebml2/ebmlmain.c:EBML_ReadCodedSizeValue"]}
{"id": "C02", "title": "Element size coding is minimal", "statement": "EBML_CodedSizeLength returns the least byte count whose non-reserved values include L (all-ones is reserved), or the forced length when that is larger, for every L below the 5-byte limit.", "quantifier": "all finite sizes below 2^35-1 and all forced lengths", "why_tests_cant": "minimality quantifies over every shorter encoding of every value", "anchors": ["libebml2/ebmlmain.c:EBML_CodedSizeLength"]}
{"id": "C03", "title": "Unknown-size marker", "statement": "An element of unknown size is written as the all-ones pattern of the chosen length n (1..8) and is read back as the reserved value 2^(7n)-1 reported in SizeUnknown; conversely a size read from a buffer equals SizeUnknown exactly when all its value bits are one.", "quantifier": "all lengths 1..8 and all byte buffers", "why_tests_cant": "reader direction ranges over all buffers", "anchors": ["libebml2/ebmlmain.c:EBML_CodedValueLength", "libebml2/ebmlmain.c:EBML_ReadCodedSizeValue"]}
{"id": "C04", "title": "Size reader never looks past its buffer", "statement": "EBML_ReadCodedSizeValue only inspects bytes inside the length it is given, reports length 0 exactly when the buffer does not hold a complete coded size, otherwise consumes exactly the bytes announced by the first byte, and its result does not depend on what follows.", "quantifier": "all byte buffers of every length", "why_tests_cant": "memory safety over every malformed input", "anchors": ["libebml2/ebmlmain.c:EBML_ReadCodedSizeValue"]}
{"id": "C05", "title": "Signed lace-size codec", "statement": "EBML_CodedValueLengthSigned on the size chosen by EBML_CodedSizeLengthSigned is inverted by EBML_ReadCodedSizeSignedValue for every difference v with -2^27 < v < 2^35; for v <= -2^27, or when a larger size than the natural one is forced on a difference of magnitude below 2^27, the value read back differs.", "quantifier": "all int values and all coded sizes", "why_tests_cant": "the value space and the size choice interact at every power-of-two boundary", "anchors": ["libebml2/ebmlmain.c:EBML_CodedValueLengthSigned", "libebml2/ebmlmain.c:EBML_CodedSizeLengthSigned", "libebml2/ebmlmain.c:EBML_ReadCodedSizeSignedValue"]}
{"id": "C06", "title": "Element ID codec", "statement": "For every class ID that is a well-formed EBML ID (leading length marker agrees with its byte count), EBML_FillBufferID writes GetIdLength bytes that EBML_BufferToID and the parser's ID reader turn back into the same ID, and distinct IDs never have one encoding a prefix of another.", "quantifier": "all 32-bit well-formed IDs and all following bytes", "why_tests_cant": "about 2^28 IDs times all continuations", "anchors": ["libebml2/ebmlelement.c:EBML_FillBufferID", "libebml2/ebmlelement.c:EBML_BufferToID", "libebml2/ebmlelement.c:GetIdLength", "libebml2/ebmlmain.c:EBML_IdFromBuffer"]}
{"id": "C07", "title": "Unsigned integer elements round trip on minimal length", "statement": "Rendering an unsigned integer element and reading its data back returns the same 64-bit value; the data size used is the smallest byte count in 1..8 holding the value.", "quantifier": "all 2^64 values, all stored sizes", "why_tests_cant": "2^64 values", "anchors": ["libebml2/ebmlnumber.c:UpdateSizeInt", "libebml2/ebmlnumber.c:RenderDataInt", "libebml2/ebmlnumber.c:ReadDataInt"]}
{"id": "C08", "title": "Signed integer elements", "statement": "The size chosen for a signed integer is the smallest two's-complement size, and the bytes rendered decode (two's complement, big endian) to the value. Reading back through ReadDataSignedInt gives the value whenever every byte but the first has its top bit clear or the value's sign already fills it; where plain char is signed, other values such as 128 are read back wrong.", "quantifier": "all int64 values, both char signedness conventions", "why_tests_cant": "2^64 values and a platform convention no single test host exposes", "anchors": ["libebml2/ebmlnumber.c:UpdateSizeSignedInt", "libebml2/ebmlnumber.c:RenderDataSignedInt", "libebml2/ebmlnumber.c:ReadDataSignedInt"]}
{"id": "C09", "title": "CRC-32 is the IEEE CRC and is chunk independent", "statement": "Feeding data to EBML_CRCAddBuffer in any sequence of pieces whose word/byte split differs yields the same bitwise IEEE 802.3 CRC-32 as one call, and EBML_CRCMatches accepts a buffer exactly when the stored value is that CRC.", "quantifier": "all byte strings and all ways to cut them", "why_tests_cant": "unbounded data and unbounded cut points", "anchors": ["libebml2/ebmlcrc.c:EBML_CRCAddBuffer", "libebml2/ebmlcrc.c:EBML_CRCMatches", "libebml2/ebmlcrc.c:m_tab"]}
{"id": "C10", "title": "CRC-32 detects short corruption", "statement": "If a buffer matching its CRC element is changed within any window of at most 32 consecutive bits (in particular any single bit), EBML_CRCMatches rejects it.", "quantifier": "all buffers of every length, all error positions and patterns of width at most 32 bits", "why_tests_cant": "unbounded length times 2^32 patterns times every position", "anchors": ["libebml2/ebmlcrc.c:EBML_CRCMatches"]}
{"id": "C11", "title": "Void element fills exactly the requested space", "statement": "EBML_VoidSetFullSize(n) followed by rendering writes a well-formed Void of exactly n bytes for every 2 <= n < 2^35 except 2^(7k)-1 <= n <= 2^(7k)+k (k = 1..4: 127..129, 16383..16386, ...), where it is exactly one byte short; it reports failure exactly for n < 2.", "quantifier": "all requested sizes n", "why_tests_cant": "boundary intervals at every size class up to 2^35", "anchors": ["libebml2/ebmlvoid.c:EBML_VoidSetFullSize", "libebml2/ebmlelement.c:EBML_ElementFullSize"]}
{"id": "C12", "title": "Replacing a Void leaves a parseable filler", "statement": "EBML_VoidReplaceWith refuses exactly when the replacement is larger than the Void or leaves one byte; otherwise bytes outside the Void are untouched and the replacement is written at its start. With an exact fit nothing else is written. For a gap of 3 bytes or more a well-formed finite Void header follows whose element is short of the gap by exactly the coded length of the gap (finding: stale bytes remain after it); for a gap of 2 an unknown-size Void header is written (finding).", "quantifier": "all gaps between the void and its replacement", "why_tests_cant": "every gap size across coded-size boundaries", "anchors": ["libebml2/ebmlvoid.c:EBML_VoidReplaceWith"]}
{"id": "C13", "title": "Master size is the sum of its parts", "statement": "After EBML_ElementUpdateSize the data size of a master is the sum of the full sizes of the rendered children (plus 6 when it carries a checksum), at every level; a second update changes nothing; and rendering, to a file or in memory, writes exactly EBML_ElementFullSize bytes at the current position. Finding: sizes updated with one value of bWithDefault are kept when rendering with the other, so the coded size disagrees with the bytes written.", "quantifier": "all element trees of any depth and width, with/without defaults, checksums and forced size lengths", "why_tests_cant": "unbounded trees", "anchors": ["libebml2/ebmlmaster.c:UpdateDataSize", "libebml2/ebmlmaster.c:RenderData", "libebml2/ebmlelement.c:EBML_ElementRender", "libebml2/ebmlelement.c:EBML_ElementFullSize"]}
{"id": "C14", "title": "Render then read restores the tree", "statement": "Rendering an element tree writes its encoding (ID, coded size, optional checksum, payload or children, recursively), and any encoding of a tree whose elements are known in their parent's context, lying anywhere in a file or memory stream, is found and read back by the library's own reader as the same tree (kinds, values, order), with all positions consistent, leaving the stream just after the element. Finding: after a child of unknown size the next sibling is lost.", "quantifier": "all well-formed element trees, any stream prefix and suffix", "why_tests_cant": "unbounded trees and surrounding data", "anchors": ["libebml2/ebmlmaster.c:ReadData", "libebml2/ebmlmaster.c:RenderData", "libebml2/ebmlmain.c:EBML_FindNextElement"]}
{"id": "C15", "title": "Master read verifies the checksum", "statement": "Reading a master that starts with a CRC-32 element and has some content reports a valid checksum exactly when the stored value is the CRC-32 of the bytes that follow, whatever they are; so a rendered master is reported valid, and invalid after any change confined to 32 consecutive bits of the covered bytes that can still be read. Findings: a checksum over no bytes is not verified in files, nor is one below the depth asked for.", "quantifier": "all trees and all corruptions", "why_tests_cant": "unbounded data", "anchors": ["libebml2/ebmlmaster.c:RenderData", "libebml2/ebmlmaster.c:ReadData", "libebml2/ebmlcrc.c:EBML_CRCMatches"]}
{"id": "C16", "title": "Element finder stays inside its bounds", "statement": "EBML_FindNextElement, on any stream content, context chain and start position, terminates and never indexes outside its 16-byte scratch buffer. For a search that starts inside its context (the innermost one not over yet) and less than 4 GB before the end of the file, the stream position afterwards is at most the end of that context and the result does not depend on any byte at or after it. Started after the end of the outermost context these guarantees are lost (finding).", "quantifier": "all byte streams (including malicious), all context chains, all start positions", "why_tests_cant": "all malformed inputs", "anchors": ["libebml2/ebmlmain.c:EBML_FindNextElement"]}
{"id": "C17", "title": "Element finder position contract", "statement": "An element returned by EBML_FindNextElement has consecutive ElementPosition < SizePosition < data position inside the bytes read, its ID, size and class are those coded there, and the stream is left at its data; the number of levels left is reported. A complete header of a child of the context at the current position is found with exact fields, no such header is jumped over, and after arbitrary junk one with 12 bytes of room in the file and contexts is never missed. Findings: the element may end after its context by up to its header length; near the end of a context a stale ID length can be applied, or an element missed.", "quantifier": "all streams, contexts and start positions", "why_tests_cant": "all inputs", "anchors": ["libebml2/ebmlmain.c:EBML_FindNextElement", "libebml2/ebmlmain.c:EBML_ElementCreateUsingContext"]}
{"id": "C18", "title": "Mandatory children and defaults", "statement": "EBML_MasterCheckMandatory answers yes exactly when every master of the tree has its required children. EBML_MasterAddMandatory keeps the existing children in place, adds at the end one child for each mandatory unique entry allowed in the profile whose ID is missing, and nothing else; a second call changes nothing. With defaults, a new element is complete when all required entries reached are unique. A child left out of the output because it holds its default is restored with that value when asked for. Findings: repeatable mandatory children are not added; without SetDefault the masters added are left incomplete; a master that must contain itself is never finished.", "quantifier": "all contexts (schemas), all existing children, all profiles", "why_tests_cant": "unbounded schemas and trees", "anchors": ["libebml2/ebmlmaster.c:EBML_MasterAddMandatory", "libebml2/ebmlmaster.c:EBML_MasterCheckMandatory"]}
{"id": "C19", "title": "Child search, count and append behave as a list", "statement": "EBML_MasterAppend/FindFirstElt/FindNextElt/Count/Clear act on the ordered list of children: first match, next match after a given child, appended last, count equals length.", "quantifier": "all sequences of tree operations", "why_tests_cant": "unbounded histories", "anchors": ["libebml2/ebmlmaster.c:EBML_MasterFindFirstElt", "libebml2/ebmlmaster.c:EBML_MasterFindNextElt", "libebml2/ebmlmaster.c:EBML_MasterAppend"]}
{"id": "C20", "title": "Node tree links stay consistent", "statement": "NodeTree_SetParent/AddChild/RemoveChild keep parent, first-child and next links an exact forest: every child is listed exactly once by exactly its parent, in the order requested.", "quantifier": "all histories of set-parent operations on any number of nodes", "why_tests_cant": "unbounded pointer histories", "anchors": ["corec/corec/node/nodetree.c:NodeTree_SetParent", "corec/corec/node/nodetree.c:AddChild", "corec/corec/node/nodetree.c:RemoveChild"]}
{"id": "C21", "title": "Array sort returns a sorted permutation", "statement": "ArraySortEx permutes the elements and leaves them in non-decreasing order for every comparison that is a total preorder, for every length including the quick-sort / insertion-sort switch.", "quantifier": "all arrays and all total preorders", "why_tests_cant": "unbounded lengths, arbitrary comparison", "anchors": ["corec/corec/array/array.c:ArraySortEx", "corec/corec/array/array.c:InQSort", "corec/corec/array/array.c:SlowSort"]}
{"id": "C22", "title": "Sorted array search and update", "statement": "ArrayFindEx on a sorted array finds a matching element iff there is one and otherwise reports the insertion point keeping the order; ArrayAddEx/ArrayRemoveEx keep the array sorted with unique keys and act as insert/delete of a finite set.", "quantifier": "all sorted arrays, all keys, all operation histories", "why_tests_cant": "unbounded arrays and histories", "anchors": ["corec/corec/array/array.c:ArrayFindEx", "corec/corec/array/array.c:ArrayAddEx", "corec/corec/array/array.c:ArrayRemoveEx"]}
{"id": "C23", "title": "Array edit operations are list edits", "statement": "ArrayInsert, ArrayDelete and ArrayAppend act on the byte contents as list insertion, deletion and concatenation, never touch bytes outside the allocation, and leave the array unchanged when allocation fails.", "quantifier": "all contents, offsets, lengths and alignments", "why_tests_cant": "all sizes and alignments", "anchors": ["corec/corec/array/array.c:ArrayInsert", "corec/corec/array/array.c:ArrayDelete", "corec/corec/array/array.c:ArrayAppend", "corec/corec/array/array.c:SizeAlign"]}
{"id": "C24", "title": "FIFO is a queue", "statement": "Fifo_Write/Fifo_Read deliver bytes in order without loss or duplication across any interleaving, including the internal compaction.", "quantifier": "all interleavings of writes and reads", "why_tests_cant": "unbounded histories", "anchors": ["corec/corec/array/array.c:Fifo_Write", "corec/corec/array/array.c:Fifo_Read"]}
{"id": "C25", "title": "Block header round trip", "statement": "Rendering a Block or SimpleBlock writes exactly the bytes the format prescribes for its track number (below 16384), signed 16-bit relative timestamp, keyframe/discardable/invisible flags, lacing and frames; a larger track number is refused with nothing written; reading those bytes anywhere in a stream gives back every field, the frame sizes and the place of the frames. Finding: a block of four bytes at the end of a file (an empty frame) is not read.", "quantifier": "all track numbers, all int16 timestamps, all flags and lacing types", "why_tests_cant": "2^32 combinations and buffer tails", "anchors": ["libmatroska2/matroskamain.c:RenderBlockData", "libmatroska2/matroskamain.c:ReadBlockData"]}
{"id": "C26", "title": "Xiph lacing round trip", "statement": "Frames written in Xiph lacing, 1 to 256 of them whose size codes fit the four bytes per frame the writer has, are read back exactly. Finding: a valid Xiph-laced block with a long frame, read and rendered again, writes outside the buffer of the lace.", "quantifier": "all lists of frame sizes and all payloads", "why_tests_cant": "unbounded sizes", "anchors": ["libmatroska2/matroskamain.c:RenderBlockData", "libmatroska2/matroskamain.c:ReadBlockData"]}
{"id": "C27", "title": "EBML lacing round trip", "statement": "Frames written in EBML lacing, 2 to 256 of them whose first size is below 2^28-1 and whose successive differences are below 2^27, are read back exactly. Finding: a size coded on more bytes than needed, which the format allows, makes the reader run over its buffer.", "quantifier": "all lists of frame sizes and payloads", "why_tests_cant": "unbounded sizes, signed differences", "anchors": ["libmatroska2/matroskamain.c:RenderBlockData", "libmatroska2/matroskamain.c:ReadBlockData"]}
{"id": "C28", "title": "Fixed lacing round trip", "statement": "Frames of equal size written with fixed lacing, fewer than 256 of them, are read back exactly; when the data does not divide into the frames, each frame read has the quotient and fewer bytes than frames are lost. Finding: a block of 256 equal frames, which the library writes, makes its reader loop for ever.", "quantifier": "all counts and sizes", "why_tests_cant": "unbounded", "anchors": ["libmatroska2/matroskamain.c:RenderBlockData", "libmatroska2/matroskamain.c:ReadBlockData"]}
{"id": "C29", "title": "Block size announces the bytes rendered", "statement": "The data size computed by updating a block equals the number of bytes rendering it writes, for each lacing mode and with header stripping.", "quantifier": "all blocks, frame lists and lacing modes", "why_tests_cant": "unbounded frame lists", "anchors": ["libmatroska2/matroskamain.c:UpdateBlockSize", "libmatroska2/matroskamain.c:RenderBlockData"]}
{"id": "C30", "title": "Block reading is safe on malformed data", "statement": "Whatever the bytes, a frame table the reader accepts has 1 to 256 entries that add up to the rest of the element modulo 2^32 (less a remainder with fixed lacing); outside EBML lacing, 256 frames of fixed lacing and streams ending in 255, reading ends and stays in its buffers; the data read is what the table adds up to, and every frame is inside it when no size is negative. Findings: sizes larger than the data and negative differences give frames outside the data; an EBML lace with a count byte of 0 writes after the table; a Xiph size cut by the end of file is read for ever.", "quantifier": "all byte contents", "why_tests_cant": "all malformed inputs", "anchors": ["libmatroska2/matroskamain.c:ReadBlockData"]}
{"id": "C31", "title": "Header-stripping compression is lossless", "statement": "With header-strip compression frames that begin with the stripped header are read back whole in any lacing, and rendering refuses a block with a frame that does not. Finding: with a scope that does not cover blocks, frames are written whole but read with the header added.", "quantifier": "all headers and frames", "why_tests_cant": "unbounded", "anchors": ["libmatroska2/matroskamain.c:RenderBlockData", "libmatroska2/matroskamain.c:TrackSetCompressionHeader"]}
{"id": "C32", "title": "Block timestamps", "statement": "MATROSKA_BlockSetTimestamp keeps a timestamp whose distance to the cluster fits 16 bits, rounded towards the cluster to the timestamp scale (exactly, when the distance is a multiple of it), and refuses any other; written and read again it is less than two units away, exact when both timestamps are multiples of the scale; moving a block, setting the timestamp of its cluster or linking a cluster just read keeps the blocks' timestamps. Findings: a timestamp set after it was asked for is not seen; asking a block linked only for reading dereferences NULL; blocks too far from a new cluster timestamp are silently written at another time; linking an empty cluster creates a Timestamp element.", "quantifier": "all timestamps, cluster timestamps and scales", "why_tests_cant": "64-bit arithmetic", "anchors": ["libmatroska2/matroskamain.c:MATROSKA_BlockSetTimestamp", "libmatroska2/matroskamain.c:MATROSKA_BlockTimestamp"]}
{"id": "C33", "title": "Frame time interval lookup", "statement": "MATROSKA_BlockGetFrame returns each frame's bytes; its timestamp, MATROSKA_BlockGetFrameStart and BlockGetFrameEnd agree with the running sum of the durations; an unknown duration makes later timestamps, and the end of its own frame, unknown; MATROSKA_BlockSkipToFrame leaves the stream at the first byte of the frame; a frame number beyond the block is refused. Finding: not in a laced block with a stripped header.", "quantifier": "all frame lists and indices", "why_tests_cant": "unbounded lists", "anchors": ["libmatroska2/matroskablock.c:MATROSKA_BlockGetFrameStart", "libmatroska2/matroskamain.c:MATROSKA_BlockSkipToFrame"]}
{"id": "C34", "title": "Cue ordering and lookup", "statement": "MATROSKA_CuesSort leaves Cues that hold only cue points with the same ones, ordered by time then track; MATROSKA_CuesGetTimestampStart then returns the last one not after the requested time, or the first one. Findings: a Void among the cue points keeps them from being sorted, hides the cue points after it and may itself be returned; sorting Cues with two elements of another class calls a NULL function.", "quantifier": "all cue lists and times", "why_tests_cant": "unbounded lists", "anchors": ["libmatroska2/matroskamain.c:CmpCuePoint", "libmatroska2/matroskamain.c:MATROSKA_CuesGetTimestampStart", "libmatroska2/matroskamain.c:MATROSKA_CuesSort"]}
{"id": "C35", "title": "Seek and cue positions are segment relative", "statement": "MATROSKA_MetaSeekUpdate makes a Seek entry, whatever it held, name the element linked to with its place relative to the segment data; MATROSKA_MetaSeekAbsolutePos gives the absolute position back wherever the segment is. MATROSKA_CuePointUpdate gives a cue point, whatever it held, the time of its block rounded to the scale, its track and the place of its cluster in the segment. Findings: a SeekID cut short is read beyond its data; the unknown time of a block is stored as a time.", "quantifier": "all positions and segment offsets", "why_tests_cant": "64-bit positions", "anchors": ["libmatroska2/matroskamain.c:MATROSKA_MetaSeekUpdate", "libmatroska2/matroskamain.c:MATROSKA_MetaSeekAbsolutePos", "libmatroska2/matroskamain.c:MATROSKA_CuePointUpdate"]}
{"id": "C36", "title": "LZO decompression is bounded", "statement": "lzokay_decompress succeeds exactly on the byte strings that are LZO1X streams of at most 2^48 bytes whose content fits the output size, and returns that content; bytes after the stream and content that does not fit are reported. On any input it ends, never writes beyond the output size, never copies from before the start of the output, and never reads outside the input provided a non-zero byte follows it in memory. Finding: a length cut by the end of the input is scanned beyond it.", "quantifier": "all compressed inputs and output sizes", "why_tests_cant": "all malformed inputs", "anchors": ["libmatroska2/lzokay/lzokay.c:lzokay_decompress"]}
{"id": "C37", "title": "Memory stream is a bounded file", "statement": "Reads, writes and seeks on a memory stream behave as on a file of the given size at the given virtual offset, short counts are reported, and no access leaves the buffer; seeking before the virtual offset breaks this (finding).", "quantifier": "all operation histories, buffers and offsets", "why_tests_cant": "unbounded histories", "anchors": ["corec/corec/helpers/file/memstream.c:MemRead", "corec/corec/helpers/file/memstream.c:MemWrite", "corec/corec/helpers/file/memstream.c:MemSeek"]}
{"id": "C38", "title": "Buffered stream transparency", "statement": "Reading through the buffering stream returns the same bytes as reading the underlying stream directly, for any sequence of request sizes; bytes written through it arrive in order, completely after flush.", "quantifier": "all request-size sequences and data", "why_tests_cant": "unbounded histories", "anchors": ["corec/corec/helpers/file/bufstream.c:BufRead", "corec/corec/helpers/file/bufstream.c:BufWrite", "corec/corec/helpers/file/bufstream.c:BufFlush"]}
{"id": "C39", "title": "UTF-8 conversion round trip", "statement": "Text of any characters below 2^21 other than NUL is written as exactly its standard UTF-8 form when the output buffer is large enough, and that form is read back as the same text, cut to the room there is; a buffer that is too small gets whole characters only. On any terminated input every converter ends, reads nothing after the terminator, never writes beyond the output length, and terminates the output. Findings: when a character does not fit it is left out but later ones that fit are still written, so the result is not a prefix; the overlong form C0 80 is decoded to a NUL in the middle of the text.", "quantifier": "all code points and all strings", "why_tests_cant": "unbounded strings", "anchors": ["corec/corec/helpers/charconvert/charconvert_utf8.c:Read_UTF8", "corec/corec/helpers/charconvert/charconvert_utf8.c:Write_UTF8"]}
{"id": "C40", "title": "Bounded string copies", "statement": "tcscpy_s, tcsncpy_s, tcscat_s and tcsncat_s leave the destination holding the text (or the joined texts) cut to the announced length minus one, terminated, write nothing after the terminator, and nothing at all when the length is 0 or already used up. Finding: appending to a buffer that is not terminated reads beyond it.", "quantifier": "all strings and destination sizes", "why_tests_cant": "unbounded strings", "anchors": ["corec/corec/str/str.c:tcscpy_s", "corec/corec/str/str.c:tcscat_s"]}
{"id": "C41", "title": "ASCII case-insensitive comparison", "statement": "tcsicmp_ascii gives the sign of a total order on texts and is 0 exactly when they differ by the case of ASCII letters only; tcsisame_ascii decides that; tcsnicmp_ascii compares the first n characters and reads no others. Finding: characters count as signed, so a longer text can come before its own beginning.", "quantifier": "all strings", "why_tests_cant": "unbounded strings", "anchors": ["corec/corec/str/str.c:tcsicmp_ascii", "corec/corec/str/str.c:tcsisame_ascii", "corec/corec/str/str.c:tcsnicmp_ascii"]}
{"id": "C42", "title": "FourCC text round trip", "statement": "FourCCToString writes the bytes of any code in memory order, cut to the buffer and without trailing '_', on hosts of both byte orders; text of 1 to 4 characters not ending in '_' is restored from its code, and any code without zero bytes other than '____' from its text; longer texts count by their first four characters, and Upper gives the code of the capitals. Finding: '____' becomes the empty text, whose code is 0.", "quantifier": "all four-byte codes", "why_tests_cant": "2^32 codes", "anchors": ["corec/corec/str/str.c:FourCCToString", "corec/corec/helpers/parser/strtypes.c:StringToFourCC"]}
{"id": "C43", "title": "Path helpers", "statement": "AddPathDelimiter gives a path one '/' at the end if there is room and changes nothing else, and RemovePathDelimiter takes it away, but not that of a bare scheme or of the root. GetProtocol gives the scheme of a URL, whether it names a host and where the rest begins. SplitPath gives the directory, name and extension for every path or URL (finding: an http URL whose file name before '#' does not fit a buffer of MAXPATH makes it write through NULL). RelPath and AbsPath are inverse for a file below a directory (finding: not for a directory given with a '/' at the end). UpperPath goes up one level, stops at the host, and each step leaves a shorter beginning of the path (finding: on smb:// it succeeds for ever). ReduceLocalPath makes separators single and resolves '..' (findings: a '..' with nothing before it never ends, and a name that merely begins with '..' is taken for '..'). CheckExts gives the letter of the first listed extension that is the one of the path, without regard to case.", "quantifier": "all paths", "why_tests_cant": "unbounded strings", "anchors": ["corec/corec/helpers/file/tools.c:ReduceLocalPath", "corec/corec/helpers/file/tools.c:SplitPath"]}
{"id": "C44", "title": "Date elements round trip", "statement": "EBML_DateSetDateTime followed by EBML_DateTime returns the same date for every 32-bit date other than 0, also after writing the element to a file and reading it back; a stored number of nanoseconds reads as its whole seconds, and order is kept, as long as these fit 32 bits; a system time from 1970 to 2038 made a date and unpacked is that time. Findings: the reference date 2001-01-01 itself means no date and cannot be set; dates after January 2069 in a file read as earlier ones; unpacking any date after January 2038 overflows a signed int.", "quantifier": "all 32-bit dates", "why_tests_cant": "2^32 values with 64-bit scaling", "anchors": ["libebml2/ebmldate.c:EBML_DateTime", "libebml2/ebmldate.c:EBML_DateSetDateTime"]}
{"id": "C45", "title": "Codec frame durations use in-range tables", "statement": "MATROSKA_BlockProcessFrameDurations gives every frame of a block the duration that its codec header states (samples over rate, in nanoseconds) for MPEG audio, AC-3, E-AC-3 and DTS, 1024 samples for AAC, and the invalid timestamp with an error for a header that states none; it never indexes outside its tables nor divides by zero; in all other cases the durations stay as they were. Findings: AC-3 frames of bsid below 8 are refused and the reserved rate code gives a duration of 0; DTS frames of more than 64 blocks get 64 blocks too many; a last frame shorter than its header is read past the data.", "quantifier": "all frame contents", "why_tests_cant": "all malformed frames", "anchors": ["libmatroska2/matroskablock.c:MATROSKA_BlockProcessFrameDurations"]}
{"id": "C46", "title": "Formatted printing stays in its buffer", "statement": "vstprintf_s with a format of literal characters, %%, %d, %i, %x, %X, %s, %c and %p, with zero fill, alignment and widths given or passed as arguments, writes exactly the text these stand for, cut to the announced length minus one and terminated, and nothing after it, provided decimal widths are at most 10 and hexadecimal ones 8, %d values below 10^12, %x values not negative and below 2^32, and right-aligned strings and characters have room for their field. Findings: a wider right-aligned string is written past the buffer and a character leaves it unterminated; %r overflows; numbers outside these ranges print wrong digits; a format ending inside a directive is read past its end. (%e, %f and %g are not covered.)", "quantifier": "all formats, arguments and sizes", "why_tests_cant": "unbounded formats", "anchors": ["corec/corec/str/str.c:vstprintf_s"]}
{"id": "C47", "title": "Float elements keep the bit pattern", "statement": "Rendering a float element of 4 or 8 bytes writes the big-endian IEEE bit pattern of the stored number whatever the host byte order, and reading it gives the same bit pattern.", "quantifier": "all 32-bit and 64-bit patterns, both host byte orders", "why_tests_cant": "2^64 patterns including NaNs", "anchors": ["libebml2/ebmlnumber.c:RenderDataFloat", "libebml2/ebmlnumber.c:ReadDataFloat"]}
{"id": "C48", "title": "Reading arbitrary bytes is safe and ends", "statement": "Reading the data of an element found in any file (any schema without a master under the CRC-32 ID, any context chain with an open-ended context, checksums looked for at most one level down) terminates within a number of steps bounded by the file size, never touches a byte outside a buffer, and leaves the stream after the element's start. Findings: a file ending inside an unknown-size master with a known-size parent makes the reader dereference NULL; in a memory stream a CRC-32 element that is not the first child makes it read past the buffer.", "quantifier": "all files, schemas, context chains and start positions", "why_tests_cant": "arbitrary hostile input of any length and nesting", "anchors": ["libebml2/ebmlmaster.c:ReadData", "libebml2/ebmlelement.c:EBML_ElementSkipData", "libebml2/ebmlmain.c:EBML_FindNextElement"]}
{"id": "C49", "title": "Copies are written as the same bytes", "statement": "EBML_ElementCopy of a finite-size element tree gives a tree with the same children and values, which can be written whenever the original can and then produces exactly the same bytes. Findings: a forced default size and the unknown-size mark are not copied, and the copy of a string that was never set has a zero-byte buffer that is read past its end.", "quantifier": "all element trees and output positions", "why_tests_cant": "unbounded trees", "anchors": ["libebml2/ebmlmaster.c:Copy", "libebml2/ebmlstring.c:Copy", "libebml2/ebmlnumber.c:CopyInt", "libebml2/ebmlbinary.c:Copy"]}
{"id": "C50", "title": "Context check reports every violation", "statement": "EBML_MasterCheckContext with a callback that deletes nothing reports exactly the children disabled by the profile, the second child of an ID that must be unique, and the missing mandatory classes without default; with any callback it ends and only removes children. Finding: after a deletion the first child is passed over, so violations can remain unreported.", "quantifier": "all schemas, child lists, profiles and callbacks", "why_tests_cant": "unbounded child lists and callback behaviours", "anchors": ["libebml2/ebmlmaster.c:EBML_MasterCheckContext"]}
{"id": "C51", "title": "Automatic lacing keeps the frames", "statement": "Appending 1 to 255 frames below 2^27 bytes to an empty block, with or without header stripping, updating its size and rendering writes a well-formed block of the announced size from which the frames are read back. Finding: the lacing chosen is not always the shortest.", "quantifier": "all frame lists, track headers and flags", "why_tests_cant": "unbounded frame sizes and combinations", "anchors": ["libmatroska2/matroskamain.c:GetBestLacingType", "libmatroska2/matroskamain.c:UpdateDataSize", "libmatroska2/matroskamain.c:MATROSKA_BlockAppendFrame"]}
{"id": "C52", "title": "Released block data can be read again", "statement": "After MATROSKA_BlockReleaseData the block holds no data, and reading it again gives the same frames, with or without header stripping.", "quantifier": "all blocks, track headers and stream positions", "why_tests_cant": "arbitrary frame tables and call histories", "anchors": ["libmatroska2/matroskamain.c:MATROSKA_BlockReleaseData", "libmatroska2/matroskamain.c:MATROSKA_BlockReadData"]}
{"id": "C53", "title": "A cue leads to its block", "statement": "MATROSKA_GetBlockForTimestamp returns the first block of the cluster, in a SimpleBlock or BlockGroup, with the track and time asked for, and nothing when there is none; in a cluster whose time is a multiple of the scale, asked with the time and track MATROSKA_CuePointUpdate stored for one of its blocks, it finds a block of exactly that time and track. Finding: a track number of 32768 or more is never found.", "quantifier": "all clusters, tracks and times", "why_tests_cant": "unbounded clusters and 64-bit times", "anchors": ["libmatroska2/matroskamain.c:MATROSKA_GetBlockForTimestamp", "libmatroska2/matroskamain.c:MATROSKA_CuePointUpdate"]}
{"id": "C54", "title": "Sorting a cluster", "statement": "MATROSKA_ClusterSort on a cluster with at most one Timestamp keeps exactly the same children and stays in the list; when the other children are all SimpleBlock, or all BlockGroup, and times that differ do so by 100 us or more and less than 2^31 times that, the result is the Timestamp, then the blocks by time, higher tracks first. Findings: with two Timestamps the sort can read before its array; SimpleBlock and BlockGroup are not sorted together; blocks closer than 100 us stay unsorted; blocks far apart are put in the wrong order.", "quantifier": "all child lists, times and tracks", "why_tests_cant": "unbounded lists and every comparison pattern", "anchors": ["libmatroska2/matroskamain.c:MATROSKA_ClusterSort", "libmatroska2/matroskamain.c:ClusterEltCmp", "libmatroska2/matroskamain.c:MATROSKA_BlockCmp"]}
{"id": "C55", "title": "LZO-compressed blocks are restored", "statement": "Reading a block, in any lacing, of a track compressed with LZO gives back the original frames whenever each expands to at most four times its compressed size or 2048 bytes; on other bytes reading ends with a frame table that matches the data or an error. Findings: frames that expand more are refused; after a failed read of an unlaced block a second read reports success without data.", "quantifier": "all frame lists, compressed forms, lacings and stream positions", "why_tests_cant": "unbounded frames and every compressed form of them", "anchors": ["libmatroska2/matroskamain.c:MATROSKA_BlockReadData", "libmatroska2/lzokay/lzokay.c:lzokay_decompress"]}
{"id": "C56", "title": "Code page conversion round trip", "statement": "Text whose characters are all in a supported code page is converted to that page and back without change, via UTF-8, when the buffers are large enough; a character the page does not have is shown as '?'.", "quantifier": "all texts, all supported code pages", "why_tests_cant": "unbounded texts over the whole Unicode range", "anchors": ["corec/corec/helpers/charconvert/charconvert_utf8.c:CharConvSS", "corec/corec/helpers/charconvert/charconvert_utf8.c:Read_Simple", "corec/corec/helpers/charconvert/charconvert_utf8.c:Write_Simple"]}
{"id": "C57", "title": "UTF-16 conversion", "statement": "Any Unicode text converted from UTF-8 to UTF-16 is written as the standard code units, with surrogate pairs above U+FFFF, and converted back gives the same text when the buffers are large enough. Finding: with room for only one unit left, a character above U+FFFF is written as its low 16 bits.", "quantifier": "all texts and buffer lengths", "why_tests_cant": "unbounded texts over the whole Unicode range", "anchors": ["corec/corec/helpers/charconvert/charconvert_utf8.c:CharConvUS", "corec/corec/helpers/charconvert/charconvert_utf8.c:CharConvSU"]}
{"id": "C58", "title": "Index in a list of names", "statement": "StrListIndex returns the position of the first item of a comma-separated list that is the name asked for, up to ASCII case and an optional note after a blank, and -1 when there is none, when the list is missing or empty, or when the name is empty; it reads only the two strings.", "quantifier": "all names without commas and all lists", "why_tests_cant": "unbounded lists and names", "anchors": ["corec/corec/str/str.c:StrListIndex"]}
{"id": "C59", "title": "Numbers and GUIDs as text", "statement": "IntToString and Int64ToString write the decimal or zero-filled hexadecimal form of the number, GUIDToString the standard form of the GUID, cut to the buffer and terminated, when no 32-bit word shown in hexadecimal has its top bit set (and, for decimal 64-bit numbers, when the number is below 2^31). Findings: with a top bit set wrong digits are printed, and larger decimal 64-bit numbers are printed as two numbers side by side.", "quantifier": "all numbers, GUIDs and buffer lengths", "why_tests_cant": "2^64 numbers, 2^128 GUIDs", "anchors": ["corec/corec/helpers/parser/strtypes.c:IntToString", "corec/corec/helpers/parser/strtypes.c:Int64ToString", "corec/corec/helpers/parser/strtypes.c:GUIDToString"]}
{"id": "C60", "title": "Formatted scanning", "statement": "stscanf on any input made of literal characters, blanks and decimal, octal or hexadecimal numbers (signed, after blanks, in either case, with or without widths) stores exactly these numbers; so StringToInt reads back what IntToString wrote, also when it detects the base, and StringToInt64 what Int64ToString wrote in hexadecimal, up to the top bits of the words. Findings: StringToInt64 is 2^32 too small whenever the low word has its top bit set; after %ld every %d stores 64 bits; '-' alone counts as a number; a mask ending in % is read past its end.", "quantifier": "all inputs made of such items, all numbers and buffers", "why_tests_cant": "unbounded inputs and masks", "anchors": ["corec/corec/str/str.c:stscanf", "corec/corec/helpers/parser/strtypes.c:StringToInt", "corec/corec/helpers/parser/strtypes.c:StringToInt64"]}
{"id": "C61", "title": "Setting the compression of a track", "statement": "On any track with at most one ContentEncodings, MATROSKA_TrackSetCompressionAlgo and MATROSKA_TrackSetCompressionHeader leave it declaring exactly that compression (scope, algorithm, header), with its other children unchanged, answer whether it declared one before, and MATROSKA_TrackGetBlockCompression then gives the algorithm if the scope covers the frames; MATROSKA_TrackSetCompressionNone, a scope of 0 or an empty header take the compression away; asking twice gives the same answer. Findings: asking adds missing elements to the track, which can make its frames unreadable; with two ContentEncodings one stays.", "quantifier": "all tracks and headers", "why_tests_cant": "arbitrary element trees and call histories", "anchors": ["libmatroska2/matroskamain.c:MATROSKA_TrackSetCompressionAlgo", "libmatroska2/matroskamain.c:MATROSKA_TrackSetCompressionHeader", "libmatroska2/matroskamain.c:MATROSKA_TrackSetCompressionNone", "libmatroska2/matroskamain.c:MATROSKA_TrackGetBlockCompression"]}
{"id": "C62", "title": "Codec private data kept as read", "statement": "Without zlib and bzlib compiled in, computing the size of a track takes codec private data that are plain out of the scope of a compression and changes nothing else, and a track that was read and not changed keeps what it declares. Findings: the data of a new track count as compressed with zlib, so plain data are declared compressed; taking the compression away from a track that was read leaves the data compressed with nothing saying so.", "quantifier": "all tracks, whatever their other children", "why_tests_cant": "arbitrary element trees", "anchors": ["libmatroska2/matroskamain.c:ReadTrackEntry", "libmatroska2/matroskamain.c:UpdateDataSizeTrackEntry"]}
{"id": "C63", "title": "Linking a block to its track", "statement": "Linking a block to a list of tracks for reading or writing picks the first track of the list with the number of the block (tracks without a number are passed over) and changes nothing else of an uncompressed block; on the first link to a track with a stripped header every frame size grows by the header; with no such track the call says so and nothing changes. Linking directly to a track gives the block its number (below 2^16); a track without a number is refused. Findings: linking for writing after reading counts the header twice; linking for writing first dereferences NULL.", "quantifier": "all blocks, track lists and tracks", "why_tests_cant": "unbounded lists and arbitrary element trees", "anchors": ["libmatroska2/matroskamain.c:MATROSKA_LinkBlockWithReadTracks", "libmatroska2/matroskamain.c:MATROSKA_LinkBlockReadTrack", "libmatroska2/matroskamain.c:MATROSKA_LinkBlockWithWriteTracks", "libmatroska2/matroskamain.c:MATROSKA_LinkBlockWriteTrack"]}
{"id": "C64", "title": "Linking a cluster to the tracks", "statement": "MATROSKA_LinkClusterBlocks with uncompressed tracks links every SimpleBlock, and the first Block of every BlockGroup, to the first track with its number and to the segment information, keeps everything else in place and in order, and removes blocks (with their groups) without a track unless they are to be kept; then no such block is without its track.", "quantifier": "all clusters and track lists", "why_tests_cant": "unbounded clusters", "anchors": ["libmatroska2/matroskamain.c:MATROSKA_LinkClusterBlocks"]}
{"id": "C65", "title": "Keyframe and discardable flags", "statement": "The keyframe and discardable flags set on a SimpleBlock are the ones reported, also after writing and reading it, and setting them does not change whether it is laced; a Block not marked by the program is a keyframe exactly when its group has no ReferenceBlock, and is never discardable. Findings: marking a Block is lost when it is written, and unmarking one in a group without ReferenceBlock has no effect.", "quantifier": "all blocks, groups, lacings and frames", "why_tests_cant": "unbounded frames and groups", "anchors": ["libmatroska2/matroskamain.c:MATROSKA_BlockKeyframe", "libmatroska2/matroskamain.c:MATROSKA_BlockDiscardable", "libmatroska2/matroskamain.c:MATROSKA_BlockSetKeyframe", "libmatroska2/matroskamain.c:MATROSKA_BlockSetDiscardable", "libmatroska2/matroskamain.c:MATROSKA_BlockLaced"]}
{"id": "C66", "title": "The Matroska schema is unambiguous and its files are read back", "statement": "In the element tables of the library every ID is a valid EBML ID and no two elements share one; every default has the type of its element; reading inside nested masters, an ID gives the element it names at the innermost level that lists it, Void and CRC-32 in every master, and a dummy or nothing when no level lists it. So every tree that follows the tables and has no blocks, known sizes and values of the right types, written to a file, is found and read back with the same elements and values; and on any file, reading with these tables ends and stays inside its buffers.", "quantifier": "all trees of the 270-element schema, all chains of contexts, all files", "why_tests_cant": "unbounded trees and files over the whole schema", "anchors": ["libmatroska2/matroska_sem.c:MATROSKA_InitSemantic", "libmatroska2/matroskamain.c:EBML_SemanticMatroska", "libebml2/ebmlmain.c:EBML_ElementCreateUsingContext"]}
{"id": "C67", "title": "Making Matroska elements with their defaults", "statement": "Making any element of the Matroska schema with its mandatory children, in any profile, ends at most four levels down and gives an element of the kind asked for; the mandatory check then passes exactly when no master that was made requires a child that may be repeated. Finding: so newly made SeekHead, Cues, CuePoint, Tracks, Chapters, EditionEntry, ChapterDisplay, Tags, Tag, Attachments, ContentEncodings, BlockAdditions and Segment elements do not pass the library's own check.", "quantifier": "all elements, all profiles", "why_tests_cant": "the schema has hundreds of elements and any combination of profile bits", "anchors": ["libebml2/ebmlmain.c:EBML_ElementCreate", "libebml2/ebmlmaster.c:EBML_MasterAddMandatory", "libebml2/ebmlmaster.c:EBML_MasterCheckMandatory", "libmatroska2/matroska_sem.c"]}
{"id": "C68", "title": "Base 64", "statement": "BufferToBase64 writes for every buffer the text of RFC 4648 with a terminator and nothing outside it, or refuses when there is no room without leaving the text buffer; ExprIsBase64 reads that text back, after blanks and up to the first other character, cutting the bytes to the buffer it was given; on any terminated text it stays inside the text and the buffer. Finding: an empty buffer is terminated even when the text buffer has no room.", "quantifier": "all buffers, texts and sizes", "why_tests_cant": "unbounded buffers", "anchors": ["corec/corec/helpers/parser/parser2.c:BufferToBase64", "corec/corec/helpers/parser/parser2.c:ExprIsBase64"]}
{"id": "C69", "title": "Words and numbers in expressions", "statement": "ExprIsInt, ExprIsInt64, ExprIsIntEx, ExprIsHex, ExprIsRGB and ExprIsFourCC read exactly the number the text shows (sign, digits of any count below 2^63, a given count of digits, colours with red first in memory, codes as StringToFourCC makes them), leave the rest, and answer no and leave the text when it shows none; so the text of every int is read back; ExprIsName copies a word up to a blank or delimiter cut to its buffer; ExprIsSymbol and ExprSkipAfter move exactly past what they look for. Finding: -2^63 overflows.", "quantifier": "all texts of these forms, all buffers", "why_tests_cant": "unbounded texts", "anchors": ["corec/corec/helpers/parser/parser2.c:ExprIsInt", "corec/corec/helpers/parser/parser2.c:ExprIsIntEx", "corec/corec/helpers/parser/parser2.c:ExprIsHex", "corec/corec/helpers/parser/parser2.c:ExprIsRGB", "corec/corec/helpers/parser/parser2.c:ExprIsFourCC", "corec/corec/helpers/parser/parser2.c:ExprIsName", "corec/corec/helpers/parser/parser2.c:ExprIsSymbol", "corec/corec/helpers/parser/parser2.c:ExprSkipAfter"]}
{"id": "C70", "title": "Fractions made and read", "statement": "SimplifyFrac keeps terms that fit an int, divides others by their greatest common divisor (its 128 turns always suffice) and halves what still does not fit as often as needed and no more; so the fraction is the same number whenever the reduced terms fit. ExprIsFrac reads an unsigned decimal text, or a whole number of either sign, as that number. DoubleToFrac gives the significand over the power of two. Findings: the denominator can become 0 (3000000000); -1.5 is read as -0.5; every negative double, and doubles below 2^-10 or from 2^53, make an undefined shift.", "quantifier": "all 64-bit terms, all decimal texts, all doubles", "why_tests_cant": "64-bit inputs, unbounded texts and a loop bound that must hold for every pair", "anchors": ["corec/corec/helpers/parser/parser2.c:SimplifyFrac", "corec/corec/helpers/parser/parser2.c:ExprIsFrac", "corec/corec/helpers/parser/parser2.c:DoubleToFrac"]}
{"id": "C71", "title": "Fractions shown", "statement": "FractionToString shows every fraction of non-negative ints with up to nine decimals as a number of units of its last decimal within half a unit above it and just over half a unit below, rounded half up when the denominator is a multiple of twice the power of ten, cut to its buffer; percents are the fraction times 100 with a sign; and ExprIsFrac reads such a text as the same number. Findings: 2/3 is shown as 0.66, -1/2 as 0.-5.", "quantifier": "all such fractions, decimals and buffers", "why_tests_cant": "all pairs of ints", "anchors": ["corec/corec/helpers/parser/strtypes.c:FractionToString", "corec/corec/helpers/parser/parser2.c:ExprIsFrac"]}
{"id": "C72", "title": "What a verdict of mkvalidator means", "statement": "The result of mkvalidator is 0 exactly when no error was reported that counts. A file with result 0 has a readable EBML header of a known document type, an Info, Tracks if it has clusters, at most one Tags and Attachments, readable level 1 elements, clusters and first level 1 elements without violations of the schema, and a first SeekHead whose entries lead to the elements they name; with --live it has no Chapters or Attachments. Findings: the exit status keeps 8 bits, so files whose only errors are missing mandatory elements, or whose SeekHead cannot be read, exit with 0; errors about the versions in the header do not count.", "quantifier": "all element trees of the schema, all options", "why_tests_cant": "unbounded files", "anchors": ["mkvalidator/mkvalidator.c:main", "mkvalidator/mkvalidator.c:OutputError", "mkvalidator/mkvalidator.c:OutputWarning"]}
{"id": "C73", "title": "mkvalidator reports every violation of the schema", "statement": "For any element of the Matroska schema, at any depth, mkvalidator reports a checksum that does not match, a child the profile does not have, a second child where one is allowed and a missing mandatory child without default exactly when there is one below the element.", "quantifier": "all element trees, all profiles", "why_tests_cant": "unbounded trees over the whole schema", "anchors": ["mkvalidator/mkvalidator.c:CheckProfileViolation", "mkvalidator/mkvalidator.c:ProfileCallback", "libebml2/ebmlmaster.c:EBML_MasterCheckContext"]}
{"id": "C74", "title": "mkvalidator checks seek heads", "statement": "For a seek head whose positions and IDs are well formed or missing, mkvalidator reports an error exactly when some entry lacks its ID or position, names an element of which there is none or that is elsewhere, or (clusters) a position without a cluster; it warns exactly of entries for anything but level 1 elements and of level 1 elements without an entry. Findings: the position of an entry for the second seek head is not checked, and an entry for a cluster is accepted when the file has none.", "quantifier": "all segments and seek heads", "why_tests_cant": "unbounded lists of entries and clusters", "anchors": ["mkvalidator/mkvalidator.c:CheckSeekHead", "libmatroska2/matroskamain.c:MATROSKA_MetaSeekAbsolutePos", "libmatroska2/matroskamain.c:MATROSKA_MetaSeekID"]}
{"id": "C75", "title": "mkvalidator checks video sizes", "statement": "For a video track with numbers below 2^31, mkvalidator reports exactly: missing display sizes when the unit is not pixels, sizes of 0, cropping that leaves nothing or is given with an aspect ratio, aspect ratios equal to the pixel size, and pixel sizes that are in truth an aspect ratio by stated signs (no common divisor, the ratio of the pixels, at most an eighth). Findings: a display height of 0 makes it divide by zero; outside WebM one sign silences the warning that no sign gives.", "quantifier": "all video elements with numbers below 2^31, all profiles", "why_tests_cant": "2^31 values in nine fields", "anchors": ["mkvalidator/mkvalidator.c:CheckVideoTrack", "mkvalidator/mkvalidator.c:gcd"]}
{"id": "C76", "title": "mkvalidator checks tracks", "statement": "For any Tracks element and attachments, mkvalidator reports exactly: codec names with small letters or of no kind, sampling frequencies of 0, in WebM codecs and kinds of tracks that are not allowed, and links to attachments that are not there. Findings: audio tracks without an Audio element and tracks without a codec name pass.", "quantifier": "all track lists, names, attachments and profiles", "why_tests_cant": "unbounded lists and texts", "anchors": ["mkvalidator/mkvalidator.c:CheckTracks"]}
{"id": "C77", "title": "mkvalidator checks blocks and clusters", "statement": "For clusters and tracks with distinct numbers below 2^15, mkvalidator reports exactly: blocks of unknown tracks, laced blocks of tracks without lacing, blocks that must be key frames and are not, wrong PrevSize and Position values, clusters without time or not after the one before, and video tracks of a cluster whose key frame comes after other frames; and it adds up the bytes of every track. Findings: a track number from 65535 makes it loop for ever, blocks of tracks from 32768 count as unknown, and clusters with blocks in a file without Tracks make it use a null pointer.", "quantifier": "all lists of clusters, blocks and tracks", "why_tests_cant": "unbounded lists", "anchors": ["mkvalidator/mkvalidator.c:CheckLacingKeyframe", "mkvalidator/mkvalidator.c:CheckPosSize", "mkvalidator/mkvalidator.c:CheckVideoStart", "mkvalidator/mkvalidator.c:TrackIsLaced", "mkvalidator/mkvalidator.c:TrackIsVideo", "mkvalidator/mkvalidator.c:TrackNeedsKeyframe"]}
{"id": "C78", "title": "mkvalidator checks cue points", "statement": "For clusters whose blocks have times and well formed cue points, mkvalidator reports an error exactly when no cluster has a block of the track and time of some cue point, and warns exactly when a cue point is earlier than the one before. Finding: the position of the cluster in a cue point is never checked.", "quantifier": "all cues and clusters", "why_tests_cant": "unbounded lists", "anchors": ["mkvalidator/mkvalidator.c:CheckCueEntries", "libmatroska2/matroskamain.c:MATROSKA_GetBlockForTimestamp"]}
{"id": "C79", "title": "mkvalidator finds unknown elements and voids", "statement": "mkvalidator warns of unknown elements exactly when there is one somewhere below the element, and counts the void bytes below an element when every void is the first child of its parent. Finding: a later void replaces what was counted before.", "quantifier": "all element trees", "why_tests_cant": "unbounded trees", "anchors": ["mkvalidator/mkvalidator.c:CheckUnknownElements"]}
{"id": "C80", "title": "Remux keeps every frame", "statement": "When mkclean --remux gives clusters, they hold every block of every track exactly once and in the order of the source, whole or cut in pieces that follow each other, so that the frames of each track come out the same; nothing appears for other tracks.", "quantifier": "all block lists, times, lacing, durations and track orders", "why_tests_cant": "unbounded interleavings of tracks and cluster limits", "anchors": ["mkclean/mkclean.c:main (2460-2705)"]}
{"id": "C81", "title": "Remux begins clusters at key frames", "statement": "Clusters of a remux begin at key frame times of the main track, the first one at the first key frame; a key frame less than a second after the beginning of a cluster begins one only when no key frame comes in the two seconds, and every later one does. Decode times are the blocks' own times when these are in order.", "quantifier": "all lists of main track blocks", "why_tests_cant": "unbounded lists", "anchors": ["mkclean/mkclean.c:main (2396-2458)", "mkclean/mkclean.c:TimcodeCmp"]}
{"id": "C82", "title": "Remux comes to an end", "statement": "With key frame times in order and a main track that does not have exactly one block, a remux ends with clusters, with the message that there is no key frame (only when there is none) or with the message that the scale is too low (only when some block is too far from a cluster time). Findings: one key frame out of order can make it run for ever, and with a single block in the main track it follows a pointer past the end of an array.", "quantifier": "all sources", "why_tests_cant": "termination for every source", "anchors": ["mkclean/mkclean.c:main (2396-2705)", "corec/corec/array/array.c:ArrayRemove"]}
{"id": "C83", "title": "Remux puts blocks where they belong", "statement": "In each cluster of a remux the first block of the main track is the one decoded at the time of the cluster (a key frame when times increase), no block is decoded after the time of the next cluster, whole blocks and parts get the local time of their first frame, and parts end before the next cluster. Findings: a part too far from its cluster gets no local time where a whole block would be refused, and a laced block that ends before the next cluster is held back for it when the block after comes later.", "quantifier": "all sources with main track times in order", "why_tests_cant": "unbounded interleavings", "anchors": ["mkclean/mkclean.c:main (2460-2705)", "libmatroska2/matroskamain.c:MATROSKA_BlockAppendFrame"]}
{"id": "C84", "title": "The header mkclean strips is shared by all frames", "statement": "With --optimize, the header mkclean takes off the frames of a track is the longest beginning that all frames looked at share, so that putting it back gives every frame again, and is empty when there is no frame. Finding: frames of blocks already compressed are not looked at.", "quantifier": "all lists of blocks and frames", "why_tests_cant": "unbounded lists of frames of any size", "anchors": ["mkclean/mkclean.c:ShrinkCommonHeader", "mkclean/mkclean.c:InitCommonHeader", "mkclean/mkclean.c:ClearCommonHeader"]}
{"id": "C85", "title": "The main track of mkclean", "statement": "When every track has a type, the main track is the first video track, or else the first audio track, and the order of the tracks names all the others as they come and then the main track, each once. Finding: a track without a type makes it use a null pointer.", "quantifier": "all lists of tracks", "why_tests_cant": "unbounded lists", "anchors": ["mkclean/mkclean.c:GetMainTrack"]}
{"id": "C86", "title": "Cue points made anew", "statement": "The cue points mkclean makes for files without any are at the first key frame of the main track of a cluster, in the order of the clusters and at least 800 ms apart, and every cluster with a key frame of the main track has one unless its first key frame is less than 800 ms after an earlier cue point; it reports failure exactly when there is no key frame. Findings: tracks with numbers from 32768 get none; a later key frame of a cluster whose first one is too close is never used.", "quantifier": "all lists of clusters and blocks", "why_tests_cant": "unbounded lists", "anchors": ["mkclean/mkclean.c:GenerateCueEntries"]}
{"id": "C87", "title": "Cue points find their clusters", "statement": "The cluster mkclean finds for a cue point has a block of its track and time, and none is found only when no cluster has one; the search from the beginning gives the first such cluster. Finding: the search that goes on from the last cluster found can give a later one.", "quantifier": "all clusters and cue points", "why_tests_cant": "unbounded lists", "anchors": ["mkclean/mkclean.c:LinkCueCluster", "mkclean/mkclean.c:OptimizeCues"]}
{"id": "C88", "title": "Written clusters rise in time", "statement": "mkclean writes clusters at strictly increasing times: a cluster after the one before keeps its time, its element and its blocks, another is put one unit of the scale after it, and then the blocks keep their times and those that fit are stored rounded towards the time of the cluster. When the times are whole units of the scale, the stored cluster times increase as well. Finding: otherwise two stored cluster times can be the same.", "quantifier": "all lists of clusters with times below 2^59", "why_tests_cant": "unbounded lists and histories", "anchors": ["mkclean/mkclean.c:WriteCluster", "libmatroska2/matroskamain.c:MATROSKA_ClusterSetTimestamp"]}
{"id": "C89", "title": "The scale mkclean chooses", "statement": "Unless a scale is given, mkclean uses that of the source times the least power of two that makes it 100000 or more. Finding: with a source whose scale is 0 it runs for ever.", "quantifier": "all scales below 2^62", "why_tests_cant": "2^62 values", "anchors": ["mkclean/mkclean.c:main (1870-1881)"]}
{"id": "C90", "title": "The Cues of mkclean settle", "statement": "Placing the Cues before the clusters they lead to always ends, whatever size was supposed for them: the clusters lie one after the other right after the Cues, every cue point holds the position of its cluster from the data of the segment, and the size of the Cues is that of the cue points with those positions, as the library computes it. Finding: a cue point whose block was not found makes it use a null pointer.", "quantifier": "all lists of clusters and cue points, all starting sizes", "why_tests_cant": "a fixed point over unbounded lists, reached for every input", "anchors": ["mkclean/mkclean.c:SettleClustersWithCues", "mkclean/mkclean.c:UpdateCues", "mkclean/mkclean.c:OptimizeCues", "libmatroska2/matroskamain.c:MATROSKA_CuePointUpdate"]}
{"id": "C91", "title": "Where mkclean puts things", "statement": "A file with Cues written by mkclean, or a failure that is told: its elements follow each other without gap or overlap up to the end of the segment, and the SeekHead entries lead to the elements. The cue points lead to their clusters when the segment needs no longer head than the source had and the position first supposed for the Cues and the first cluster take as many bytes as the final ones (or a cluster time was changed). Findings: otherwise, with success reported, every cue point is off, because the SeekHead changed size after the Cues were settled or because the head of the segment grew over the element after it.", "quantifier": "all sizes of elements, clusters and heads", "why_tests_cant": "all combinations of sizes near the limits of coded lengths", "anchors": ["mkclean/mkclean.c:main (2095-3187)", "mkclean/mkclean.c:MetaSeekUpdate", "mkclean/mkclean.c:SettleClustersWithCues"]}
{"id": "C92", "title": "What mkclean leaves of an element", "statement": "Before it writes an element mkclean cleans it with all that is below: the values, the order and every child are kept, except padding, unknown elements, checksums, block groups without what they need, masters that need something and have nothing worth keeping, children that the profile does not allow and all but one of those that must be single; mandatory single children that were missing are added. At every level the result has no padding, unknown elements or checksums, every mandatory single child, none of the single ones twice, and sizes coded in the fewest bytes. This ends for every tree. Findings: an element the profile does not allow may stay as the first child; the element itself may be deleted while mkclean goes on using it (a section with nothing but padding).", "quantifier": "all element trees of the schema, all profiles, with and without --unsafe", "why_tests_cant": "unbounded trees over the whole schema", "anchors": ["mkclean/mkclean.c:ReduceSize", "mkclean/mkclean.c:MasterError", "libebml2/ebmlmaster.c:EBML_MasterCheckContext", "libebml2/ebmlmaster.c:EBML_MasterAddMandatory"]}
{"id": "C93", "title": "What mkclean does to display sizes", "statement": "For a video of any pixel size below 2^31, mkclean removes the track exactly when its display has a side of 0 pixels (see findings); otherwise the shape of the picture (width to height) is kept exactly, the display size itself stays unless it is taken for a mere ratio by stated signs, and then one side becomes that of the pixels or the unit becomes a ratio; no display size in pixels equal to the pixel size is left; cropping that leaves something of the display is kept without zeros and other cropping removed. Findings: a display of more than half the pixels (640x360 for 720x480) is turned into a ratio although the program has a sign that it is intended; cropping, which is in pixels, is measured against a display in centimetres and lost; without a display size cropping that leaves nothing stays; a height of 0 without a width stays.", "quantifier": "all video elements with display sizes below 2^63 and cropping below 2^62", "why_tests_cant": "2^63 values in nine fields", "anchors": ["mkclean/mkclean.c:CleanTracks (1017-1137)", "mkclean/mkclean.c:CleanCropValues"]}
{"id": "C94", "title": "The tracks mkclean keeps", "statement": "For a file that is not of an old profile, the tracks mkclean keeps are those with a number, a type, a codec or operation, pixel sizes other than 0, a display that is not empty and, for WebM, an allowed codec, in their order; each keeps its number, UID, type and codec, its output frequency only when it differs from the sampling frequency, and only links to files that are attached. It gives -19 exactly when no track is left. Findings: a track number of 0 and a Video without pixel sizes make it use a null pointer, a sampling frequency of 0 makes it use the deleted track.", "quantifier": "all lists of tracks, attachments and profiles", "why_tests_cant": "unbounded lists", "anchors": ["mkclean/mkclean.c:CleanTracks (974-1016, 1283-1378)"]}
{"id": "C95", "title": "Old stereo modes are converted", "statement": "For a file of an old profile whose tracks are sound, the conversion of old stereo modes ends: all tracks stay in their order, no old mode is left (both eyes become side by side), every track added names two tracks of the file with one eye each, as they were marked, numbers and UIDs stay distinct, and the profile rises exactly when there was an old mode. Findings: with a pair of eyes in the same file 'both eyes' becomes mono or is paired as a right eye; a track added may name one that is deleted afterwards; an eye without UID makes it use a null pointer.", "quantifier": "all lists of sound tracks", "why_tests_cant": "unbounded lists, restarts after each pair", "anchors": ["mkclean/mkclean.c:CleanTracks (1139-1280)", "mkclean/mkclean.c:HasTrackUID"]}
{"id": "C96", "title": "The first elements of a track", "statement": "mkclean puts TrackNumber, TrackType and CodecID at the front of each track in this order; no element is lost or doubled, elements of one kind keep their order and so do all the others.", "quantifier": "all lists of children with a number and a type", "why_tests_cant": "unbounded lists", "anchors": ["mkclean/mkclean.c:CleanTracks (1380-1397)", "corec/corec/node/nodetree.c:NodeTree_SetParent"]}
{"id": "C97", "title": "Listeners are a list of registrations", "statement": "For any history of registering, withdrawing and notifying, with listeners that themselves register, withdraw, notify, clear, set other data or delete the node from inside the callback, what is registered, who is called and in which order is what a plain list of registrations gives, newest first; the history uses freed memory or the table of a deleted node exactly when that list says so.", "quantifier": "all histories, all behaviours of the callbacks, nesting of any depth the fuel of the callbacks allows", "why_tests_cant": "reentrant callbacks of any behaviour", "anchors": ["corec/corec/node/node.c:NodeNotify_Add", "corec/corec/node/node.c:NodeNotify_Remove", "corec/corec/node/node.c:Node_Notify", "corec/corec/node/node.c:Node_RemoveNotify"]}
{"id": "C98", "title": "A notification calls everyone once", "statement": "One notification calls listeners that were registered when it began, newest first and each registration at most once; one that is not called was withdrawn meanwhile. When callbacks do nothing to the listeners, exactly all are called.", "quantifier": "all histories and callbacks", "why_tests_cant": "histories and reentrancy without bound", "anchors": ["corec/corec/node/node.c:Node_Notify"]}
{"id": "C99", "title": "Listeners may withdraw themselves", "statement": "With callbacks that register others, withdraw only themselves (once) and notify again, no history uses freed memory, leaks an entry or loses other data. Findings: a callback that withdraws itself and then the next listener uses freed memory; one that withdraws itself twice leaks; deleting the node, setting other data while the node is deleted, or removing the whole list from inside a callback uses freed memory.", "quantifier": "all histories and such callbacks", "why_tests_cant": "use after free depends on the order of reentrant calls", "anchors": ["corec/corec/node/node.c:Node_Notify", "corec/corec/node/node.c:NodeNotify_Remove", "corec/corec/node/node.c:CallDelete", "corec/corec/node/node.c:Node_RemoveData"]}
{"id": "C100", "title": "What a notification returns", "statement": "When notifying returns 0 nothing is registered any more. Finding: it can return another number with nothing registered.", "quantifier": "all histories and callbacks", "why_tests_cant": "histories without bound", "anchors": ["corec/corec/node/node.c:Node_Notify"]}
{"id": "C101", "title": "Data attached to a node is read back", "statement": "For every history of setting, adding and removing data under identifiers below 2^24 and types of the table, what is found for an identifier and type is the top of its own stack of values: the last one set is read back whole, whatever is done with other data, an added one hides the one before until it is removed, and each entry is given back with the size it was taken with. Finding: where uint_fast32_t has 32 bits, identifiers that differ only above bit 24 share their data.", "quantifier": "all histories, identifiers, types and values", "why_tests_cant": "histories without bound", "anchors": ["corec/corec/node/node.c:Node_AddData", "corec/corec/node/node.c:SetData", "corec/corec/node/node.c:Node_RemoveData", "corec/corec/node/node.c:Node_GetData", "corec/corec/node/node.c:Node_ReadData", "corec/corec/node/node.c:Node_DataSize"]}
{"id": "C102", "title": "References held by data are counted", "statement": "When no reference is set over another one, a node referred to by data of other nodes is held as many times as there are entries with it, and deleting the nodes gives all of them back. Finding: setting a reference over another one takes none on the new node and never gives back the old one, so that the new one is released too often.", "quantifier": "all such histories", "why_tests_cant": "histories without bound", "anchors": ["corec/corec/node/node.c:SetData", "corec/corec/node/node.c:Node_AddData", "corec/corec/node/node.c:DataFree", "corec/corec/node/node.c:CallDelete"]}
{"id": "C103", "title": "Fractions are compared exactly", "statement": "Two fractions with fields of 32 bits compare equal exactly when both have no value (denominator 0) or the same one; this is an equivalence. Finding: with wider fields the products wrap and different fractions compare equal.", "quantifier": "all pairs of fractions", "why_tests_cant": "2^128 pairs", "anchors": ["corec/corec/node/node.c:EqFrac"]}
{"id": "C104", "title": "Looking for one kind of element", "statement": "EBML_FindNextId, given a stream at the head of an element, gives an element with the positions, the size and the size length of the head read, of the kind asked for when the ID is its own and an unknown one otherwise, and nothing exactly when the kind does not take that size or a known size is above the limit; it gives nothing for a stream without an ID or without a size. These cases and the findings cover all streams. Findings: a stream that ends within the size gives an element of size 0; a first byte below 16 makes it store a fifth byte behind an array of four; a master of unknown size comes out with size 127 and a finite end.", "quantifier": "all streams, schemas and limits", "why_tests_cant": "streams without bound", "anchors": ["libebml2/ebmlmain.c:EBML_FindNextId", "libebml2/ebmlmain.c:EBML_ReadCodedSizeValue"]}
{"id": "C105", "title": "The order of attachments", "statement": "MATROSKA_AttachmentSort on up to 17 attachments, or on any number with at most one cover and at most one without a name, ends in bounds and keeps every attachment. When none is called cover_land, covers come first, then ordinary files by name, then the small covers and last what has no name; when there is nothing but cover art, the order is the one of Matroska. Findings: with 18 or more attachments, several covers or several without a name can make it read before the start of its array (the comparison says that such a file comes before itself); small covers are sorted after ordinary files; a landscape cover counts as equal to every ordinary file, so that files on both sides of it are not sorted at all.", "quantifier": "all lists of attachments and names", "why_tests_cant": "unbounded lists, a comparison that is not an order", "anchors": ["libmatroska2/matroskamain.c:MATROSKA_AttachmentSort", "libmatroska2/matroskamain.c:CmpAttachedFile", "libebml2/ebmlmaster.c:EBML_MasterSort", "corec/corec/array/array.c:ArraySortEx"]}
{"id": "C106", "title": "Lacing flags and key frames after mkclean", "statement": "When every block belongs to a track of the file, mkclean marks the blocks of audio and subtitle tracks as key frames that must not be dropped and leaves the marks of all others; a track ends up with FlagLacing 0 exactly when none of its blocks has several frames, and with the default (1) otherwise. Matroska v1 and DivX refuse exactly the files with SimpleBlocks. Finding: a track number of 2^31 or more is cut to an int for the size of an array and used whole as its index, which reads outside of it.", "quantifier": "all clusters, blocks, tracks and profiles", "why_tests_cant": "unbounded files", "anchors": ["mkclean/mkclean.c:LinkClusters", "mkclean/mkclean.c:main (1942-1953, 2759-2774)"]}
{"id": "C107", "title": "The compression that mkclean leaves", "statement": "--unoptimize leaves no compression; without options a track that has none is unchanged, stripped headers are kept and zlib, bzlib and lzo1x become zlib with the same scope; --optimize --compalgo 0 makes all tracks zlib, with the private data when that saves bytes; --optimize alone makes plain codecs zlib and strips the shared header of all others. Other elements of the track are kept, an empty CodecPrivate goes, and the frames are read again whenever the compression changes. Findings: without --compalgo a kept or chosen zlib compression is dropped when the private data would shrink; a compression of the private data alone is dropped without any option; --optimize_nv says that the frames of a compressed video track need not be read again while it removes the compression.", "quantifier": "all tracks, options, codecs, headers and results of zlib", "why_tests_cant": "all combinations of declared and chosen compressions", "anchors": ["mkclean/mkclean.c:main (2246-2259, 2776-2884)", "libmatroska2/matroskamain.c:MATROSKA_TrackSetCompressionAlgo", "libmatroska2/matroskamain.c:MATROSKA_TrackSetCompressionHeader"]}
{"id": "C108", "title": "The order of class registration does not matter", "statement": "Whatever the order in which a set of class definitions is registered, parents before children or after, every class ends up ready exactly when it works and its parent is ready, with the same size, flags, priority and, at every place of its method table, its own method or the one of its parent; looking up finds exactly the classes that did not fail, whatever was looked up before; asking whether a ready class is of a kind follows the definitions; and registering an ID again changes nothing. Finding: when two classes name each other as parent, asking for their kind never ends.", "quantifier": "all sets of definitions and all orders of them", "why_tests_cant": "all permutations of unbounded sets, cascades of initialisation", "anchors": ["corec/corec/node/node.c:NodeRegisterClassEx", "corec/corec/node/node.c:NodeContext_CreateClass", "corec/corec/node/node.c:InitClass", "corec/corec/node/node.c:NodeClassResize", "corec/corec/node/node.c:NodeContext_FindClass", "corec/corec/node/node.c:NodeClass_IsPartOf"]}
{"id": "C109", "title": "Enumerating classes", "statement": "When all classes are settled, the enumeration of a kind lists every ready class of that kind that is not abstract and that the filter rates above 0, exactly once, by rating, then priority, then ID, and the one class asked for is the first of the list. Finding: a class that waits for its parent has no flags yet, so that an abstract class that nobody can create is listed.", "quantifier": "all sets of definitions, kinds and filters", "why_tests_cant": "unbounded sets and any rating function", "anchors": ["corec/corec/node/node.c:NodeEnumClassFilterEx", "corec/corec/node/node.c:CmpRatedClassPri"]}
{"id": "C110", "title": "The nearest declaration of a property counts", "statement": "Reading, setting or unsetting a property of a node does what the first declaration of it says, looked for in the class, then in its parent, and so on: a function is called, data in the object is used with its nearest bit, all handlers of an event are called, those of the class first, and without a declaration there is an error; declarations of other properties play no part. This holds for tables where a property has only handlers or none, data kept in a bit has its bit and no class declares a bit alone. Findings: a property with a function in one class and a handler in another gets the function, or has the function called as a handler, depending on how many other properties there are; a bit declared again alone in a derived class is ignored, unless that class declares any other property.", "quantifier": "all chains of class tables of any size", "why_tests_cant": "tables of any size, binary search over merged tables", "anchors": ["corec/corec/node/node.c:BuildMetaLookup", "corec/corec/node/node.c:AddLookup", "corec/corec/node/node.c:CmpLookup", "corec/corec/node/node.c:BitLookup", "corec/corec/node/node.c:MetaGet", "corec/corec/node/node.c:MetaSet", "corec/corec/node/node.c:MetaUnSet"]}
{"id": "C111", "title": "A property kept in the object is read back", "statement": "Setting a property kept in the object and reading it gives the same bytes, or the same truth value when it is kept in a bit; setting without data gives zeros; the rest of the object and other properties, even other bits of the same word, keep their value; only the update function can report an error. Data of another size is refused, and so is a property that cannot be set, and then the object does not change. Findings: with comparison, a fraction of the same value in other terms is not stored; a class that declares data of its parent read-only does not prevent setting it.", "quantifier": "all class tables, objects, offsets, masks and values; strings, references and arrays excepted", "why_tests_cant": "all layouts and values", "anchors": ["corec/corec/node/node.c:MetaGet", "corec/corec/node/node.c:MetaSet", "corec/corec/node/node.c:MetaUnSet", "corec/corec/node/node.c:EqData", "corec/corec/node/node.c:Node_MaxDataSize"]}
{"id": "C112", "title": "A document written as XML reads back", "statement": "Whatever tree of elements, attributes and texts is written with the text writer, element by element, in either format of empty elements, a reader of XML sees exactly these elements, nested as given, with these attributes, default values left out, and these texts up to blanks around them. Limits: names of name characters, texts without '<' and '&', each line within 1023 bytes with its indentation. Findings: texts are not escaped, so that a text can break or forge the document; an attribute of 1019 characters loses its closing quote; a line break in an attribute is read as a blank; a single blank in the root is lost after an element; blanks are added within texts; elements nested 512 deep are indented past the end of a buffer.", "quantifier": "all trees of elements, attributes and texts of any size and depth within the limits", "why_tests_cant": "unbounded trees; reading back is a property of all of them", "anchors": ["corec/corec/helpers/parser/parser2.c:TextElementXML", "corec/corec/helpers/parser/parser2.c:TextElementBegin", "corec/corec/helpers/parser/parser2.c:TextElementEnd", "corec/corec/helpers/parser/parser2.c:TextElementEndData", "corec/corec/helpers/parser/parser2.c:TextElementAppendData", "corec/corec/helpers/parser/parser2.c:TextWrite"]}
{"id": "C113", "title": "Attributes written as XML", "statement": "An attribute is written as a blank, its name and its quoted value: a string with its marks replaced so that a reader gets the string back, numbers in decimal, points and rectangles as numbers with commas, binary data as two hexadecimal digits a byte; a default value that may be left out is not written. A string of any length is written without fault and takes at most 1023 bytes.", "quantifier": "all names, strings of any length, numbers, byte strings", "why_tests_cant": "all values", "anchors": ["corec/corec/helpers/parser/parser2.c:TextAttribEx", "corec/corec/helpers/parser/parser2.c:DataToString", "corec/corec/helpers/parser/parser2.c:TextPrintf"]}
{"id": "C114", "title": "The command line of mkclean", "statement": "Any known options in any order and any case, then the file to read and the file to write: mkclean runs with exactly the settings these options ask for, the last value counting when an option is given twice; with one file the name of the other is made from it; --version or --help anywhere stops it; an unknown document type or compression stops it; an argument that is no option has no effect in front of another option. Findings: a decimal --timecodescale, as the usage shows it, has no effect; an unknown option or an option without its value in the last place is taken for the file to read; --alt-3d with a negative number writes outside an array; the same file may be read and written.", "quantifier": "all lists of options, values and file names of any length within the buffers", "why_tests_cant": "unbounded argument lists, all orders and cases", "anchors": ["mkclean/mkclean.c:main (1556-1679)", "corec/corec/str/str.c:StringToInt64", "corec/corec/str/str.c:tcsisame_ascii"]}
{"id": "C115", "title": "The file that mkclean writes by default", "statement": "For any path that is no URL and fits the buffers, the file written is 'clean.' and the name of the file, in the directory before the last separator, and never the file that is read. Findings: a file in the root directory is written into the working directory; a backslash in a name counts as a separator; a path that does not fit is cut, and the cut name can be the file that is read.", "quantifier": "all paths that fit the buffers", "why_tests_cant": "all strings of any length", "anchors": ["mkclean/mkclean.c:main (1704-1726)", "corec/corec/helpers/file/tools.c:SplitPath", "corec/corec/helpers/file/tools.c:AddPathDelimiter"]}
{"id": "C116", "title": "Which files mkclean takes", "statement": "A file is taken exactly when every element before its first segment is supported: EBML version up to 1, IDs of up to 4 bytes, sizes of up to 8, DocType matroska or webm, required version up to 2, and every such element can be read. The last DocType decides on WebM, the last required version on Matroska 1 or 2. Findings: files that require version 3 to 5, which mkclean itself can write, are refused; a file with no head at all is taken and has no profile; a required version of 2^63 or more is taken.", "quantifier": "all sequences of elements before a segment", "why_tests_cant": "unbounded sequences", "anchors": ["mkclean/mkclean.c:CheckMatroskaHead", "mkclean/mkclean.c:main (1748-1764)"]}
{"id": "C117", "title": "The head that mkclean writes", "statement": "The DocType is webm for WebM and matroska for all others; version and required version are the ones of the profile, or what the source required when the profile has none. Without --doctype, reading the result again finds the same profile and writes the same head. WebM is never optimised. Findings: what is written for Matroska 3, 4 and 5 is refused by mkclean itself; --doctype 1 of a version 2 file leaves a version 2 file.", "quantifier": "all profiles, sources and options", "why_tests_cant": "all combinations, through two runs of the program", "anchors": ["mkclean/mkclean.c:main (1748-1764, 1955-2006)", "mkclean/mkclean.c:CheckMatroskaHead"]}
{"id": "C118", "title": "The names that mkclean leaves in a file", "statement": "The writing application becomes mkclean with its version, a letter for each option, and 'from' what was there: MuxingApp and WritingApp joined, or one of them when they are the same up to case; any number of passes adds up in this way with the oldest name at the end, cut to 1023 characters, and the names always fit. Findings: a second pass repeats the name instead of replacing it; a name that begins with 'mkclean ' and is shorter than 14 characters makes the program read behind the text; a removed own name leaves ' from ' twice.", "quantifier": "all names, options and numbers of passes", "why_tests_cant": "unbounded histories of passes and all strings", "anchors": ["mkclean/mkclean.c:main (2033-2083)", "corec/corec/str/str.c:tcsnicmp_ascii", "corec/corec/str/str.c:tcscat_s"]}
{"id": "C119", "title": "What mkclean keeps of a segment", "statement": "Of the elements of a segment mkclean keeps the last readable Info, Tracks, Chapters, Tags and Attachments, the last readable Cues when asked for, and all readable clusters in their order without their Position and PrevSize; with --live only Info, Tracks and clusters. It stops exactly when there is no readable Info, or a readable cluster and no readable Tracks. Findings: Matroska allows several Tags, but all except the last are lost; unreadable clusters are left out without an error.", "quantifier": "all sequences of level 1 elements", "why_tests_cant": "unbounded sequences", "anchors": ["mkclean/mkclean.c:main (1789-1859, 1909-1914)"]}
{"id": "C120", "title": "Scale, duration and order of the Segment Info", "statement": "The TimestampScale becomes the one asked for, or the one of the source doubled until it is 100000 or more; the duration stands for the same time as before (up to the rounding of double), or goes with --live; Duration and TimestampScale come first, all other children keep their order and value. The date is set when the file is remuxed or had none. Finding: a TimestampScale of 0 in the source makes mkclean run forever, one of 2^63 or more is undefined behaviour.", "quantifier": "all Segment Infos with any children in any order, all scales", "why_tests_cant": "unbounded children; non-termination", "anchors": ["mkclean/mkclean.c:main (1861-1907, 2084-2093)", "corec/corec/node/nodetree.c:SetParent"]}
{"id": "C121", "title": "mkparts finds the files in a file", "statement": "For every file mkparts comes to the end of its search. What it finds are pairs of an EBML header and a segment behind it, with their sizes, in the order of the file, and it does not look into a segment of known size for the next pair. In Matroska files put one behind the other, whose EBML headers hold nothing that looks like another one, it finds exactly these files. Findings: an EBML header without a segment after it, or an element behind the last segment, makes it read through a null pointer; of a segment of unknown size only the head is taken.", "quantifier": "all files below 2^32 bytes; all lists of Matroska files", "why_tests_cant": "unbounded files and lists, any bytes", "anchors": ["mkparts/mkparts.c:main (221-279)", "libebml2/ebmlelement.c:EBML_ElementSkipData", "libebml2/ebmlmain.c:EBML_FindNextElement"]}
{"id": "C122", "title": "mkparts copies", "statement": "CopyTo writes exactly the bytes at a position, however many, when they are in the file. Finding: when the file ends before, it never ends.", "quantifier": "all files, positions and sizes", "why_tests_cant": "unbounded sizes; non-termination", "anchors": ["mkparts/mkparts.c:CopyTo"]}
{"id": "C123", "title": "What mkparts writes", "statement": "With fewer than two files in a file mkparts writes nothing and gives -3. Findings: with two or more it never comes to its end; with progress shown it writes no file; with --quiet it writes only the first one, with its exact bytes, and a name that ends in \"u.\" instead of number and extension, because the text functions do not know %zu and take the number for the text that follows.", "quantifier": "all lists of Matroska files, all paths that are no URL and fit the buffers", "why_tests_cant": "unbounded lists and paths", "anchors": ["mkparts/mkparts.c:main (280-335)", "corec/corec/str/str.c:vstprintf_s", "corec/corec/str/str.c:stcatprintf_s"]}
{"id": "C124", "title": "Nodes are not used after they are freed", "statement": "In every history of a program that releases a node once for each handle it has (a node it created or took with Node_AddRef; making it a child hands it over, detaching gives it back) and deletes a child where it is only when nothing else refers to it and something above it stays, no operation reads or frees a node that has been freed, every reference, child and parent leads to a node that is there, and the nodes that stay keep their references, children and parents. Finding: a child that something refers to (the block of a cue point), deleted where it is, stays in its parent without a count: it is freed with the parent and the reference dangles.", "quantifier": "all histories of creating, taking, releasing, referring, attaching, detaching and deleting, of any number of nodes", "why_tests_cant": "unbounded histories and graphs of nodes, cascades of any depth", "anchors": ["corec/corec/node/node.c:Node_AddRef", "corec/corec/node/node.c:Node_Release", "corec/corec/node/node.c:CallDelete", "corec/corec/node/node.c:MetaSet (TYPE_NODE_REF)", "corec/corec/node/nodetree.c:SetParent", "corec/corec/node/nodetree.c:NodeTree_DetachAndRelease", "corec/corec/node/nodetree.c:NodeTree_Clear", "libmatroska2/matroskamain.c (2466-2507)"]}
{"id": "C125", "title": "Nodes are freed when nothing holds them", "statement": "In the same histories the count of a node is the number of its holders (handles, parent, references); the release by the last of them frees it, a release before changes only its count, and once the program has given back all its handles nothing is left, if the links make no cycle. Finding: nodes that refer to each other are never freed.", "quantifier": "the same histories", "why_tests_cant": "unbounded histories and graphs of nodes", "anchors": ["corec/corec/node/node.c:Node_AddRef", "corec/corec/node/node.c:Node_Release", "corec/corec/node/node.c:CallDelete", "corec/corec/node/nodetree.c:NodeTree_Clear"]}
{"id": "C126", "title": "Blocks that cannot be read are dropped", "statement": "When mkclean reads the data of the blocks of a cluster it takes out and frees exactly the simple blocks that cannot be read and the groups whose first block cannot be read, keeps the others in their order, and tells whether there were any, provided that nothing but the cluster holds the elements dropped. Finding: a simple block that a cue point refers to is said to be dropped and stays; when the cluster is read again, as mkclean does, it is freed while the cue point refers to it.", "quantifier": "all clusters, all sets of blocks that cannot be read, all histories of nodes before", "why_tests_cant": "unbounded clusters and histories; a use after free that needs a damaged file with cues", "anchors": ["mkclean/mkclean.c:ReadClusterData (245-279)", "mkclean/mkclean.c:SettleClustersWithCues (352-397)", "mkclean/mkclean.c:WriteCluster (657-689)", "corec/corec/node/node.c:Node_Release"]}
{"id": "C127", "title": "Frames compressed with zlib come back", "statement": "For any zlib that keeps its promises: compressing a frame of one byte or more into a buffer large enough and uncompressing it gives the frame, whatever its length, behind the bytes that are already in the array; a cut or damaged frame is refused after a bounded number of steps and the bytes before it stay. Finding: compressing an empty frame never ends.", "quantifier": "all frames, buffers and offsets; all implementations of zlib; all damaged streams", "why_tests_cant": "frames of any length, any behaviour of the library", "anchors": ["libmatroska2/matroskamain.c:UnCompressFrameZLib", "libmatroska2/matroskamain.c:CompressFrameZLib"]}
{"id": "C128", "title": "Blocks of zlib tracks", "statement": "A block of a track compressed with zlib is written as the block of its compressed frames, with as many bytes as its size was computed to have, in every lacing that fits the compressed sizes; a reader gets back exactly the frames, and again after the data were released. Whatever the bytes and the library do, after success the sizes of the frames share the data out, and a laced block that could not be read does not count as read. An encoding that is not for the blocks leaves them alone. Findings: with the lacing left to the library, frames of equal size whose compressed sizes differ are laced without sizes and cannot be read back; a frame that grows by more than 100 bytes is written from past the end of a buffer; a block without lacing that could not be decompressed counts as read, so that the next call gives the undecompressed state without an error.", "quantifier": "all blocks, frames, lacings and tracks; all implementations of zlib", "why_tests_cant": "unbounded frames and any behaviour of the library", "anchors": ["libmatroska2/matroskamain.c:MATROSKA_BlockReadData", "libmatroska2/matroskamain.c:RenderBlockData", "libmatroska2/matroskamain.c:UpdateBlockSize", "libmatroska2/matroskamain.c:GetBlockFrameSize", "libmatroska2/matroskamain.c:GetBestLacingType"]}
{"id": "C129", "title": "An element of unknown size can be given its size afterwards", "statement": "When the size of an element that was written with an unknown size is known, giving it that size makes the element finite and the head that is then written has the same length as before, so that nothing behind it moves, and its size reads as the one given; the size of an element that has one is not touched. As the code is, the function that promises this reports success and leaves the element of unknown size, for every element and every size, fitting or not.", "quantifier": "every element, every size, every length kept for the size", "why_tests_cant": "a test would check the result of the call, which is success, and has to read the file again to see that the size is missing", "anchors": ["libebml2/ebmlelement.c:EBML_ElementInfiniteForceSize", "libebml2/ebmlelement.c:EBML_ElementSetInfiniteSize", "libebml2/ebmlelement.c:EBML_ElementForceDataSize", "libebml2/ebmlelement.c:EBML_ElementRenderHead"]}
{"id": "C130", "title": "The text of an ID shows its bytes", "statement": "The text of an element ID is its bytes from the first that is not 0, each as two hexadecimal digits in brackets; the result is the length of the text; different IDs have different texts. Without room for it nothing is written.", "quantifier": "every ID of 32 bits and every size of the buffer", "why_tests_cant": "four billion IDs and every size of the buffer", "anchors": ["libebml2/ebmlelement.c:EBML_IdToString", "corec/corec/str/str.c:stcatprintf_s", "corec/corec/str/str.c:vstprintf_s"]}
{"id": "C131", "title": "The texts of times and colours say what they are", "statement": "The text of a time in milliseconds is its sign and its hours, minutes, seconds and milliseconds, with the hours and minutes left out when they are 0 and two digits for what follows another, cut to the room of the buffer; two times never have the same text. The text of a colour is two hexadecimal digits for each of red, green and blue, and for the fourth component when it is not 0.", "quantifier": "every time but the smallest number, every colour, every size of the buffer", "why_tests_cant": "the carries between hours, minutes and seconds and the sign of the number printed depend on the value", "anchors": ["corec/corec/helpers/parser/strtypes.c:SysTickToString", "corec/corec/helpers/parser/strtypes.c:RGBToString", "corec/corec/str/str.c:stprintf_s", "corec/corec/str/str.c:vstprintf_s"]}
{"id": "C132", "title": "The sampling frequency guessed from Vorbis headers", "statement": "For a CodecPrivate of three Vorbis headers, the first two below 255 bytes, the decoder is given exactly the three headers in order and the frequency is the one of the first; nothing outside the data is read when it has at least the bytes its first byte counts. Findings: with comments of 255 bytes or more the headers are looked for one byte too early or more, the decoder refuses and mkclean takes the error number -3 for the frequency and writes it; data that is empty or has only 255 in it is read behind its end.", "quantifier": "all headers of any length, all decoders, all data", "why_tests_cant": "the sizes and contents of the headers are any; a file with short comments shows nothing", "anchors": ["mkclean/mkclean.c:GuessSamplingFreq", "mkclean/mkclean.c:main (1314-1320)"]}
{"id": "C133", "title": "Which files mkclean touches", "statement": "mkclean changes no file but the one its output goes to; with one file name on the command line that is never the source. With a wrong command line or a source that cannot be read it changes no file. When both can be opened, a result that is not negative leaves the output with what was written, and a negative one leaves no output. Findings: a file named as source and output is lost (emptied before it is read, and erased); an output that is write protected, and so cannot be opened, is erased all the same. Not covered: which of the steps of the program leave with the result 0 without having written all.", "quantifier": "all command lines, all files and what the rest of the program writes and returns", "why_tests_cant": "all failures of the rest of the program and all states of the file system", "anchors": ["mkclean/mkclean.c:main (1686-1733, 3201-3239)", "corec/corec/helpers/file/file_libc.c:FileErase", "corec/corec/node/file/file_libc.c:Open"]}
{"id": "C134", "title": "What is read from a file that was cut", "statement": "From the first bytes of a file of elements, wherever it ends, the elements whose last byte is there are read back, all of them and in order; then at most one more: of a master that was cut, what is left of its children by the same rule; of a value that was cut, nothing. So it is after a writer that stopped at any byte. A value that was cut is told by an error and never read as a shorter one. Finding: a master that was cut is read without an error, with its remaining children, even where a checksum is there to show it; the checksum then stays as an element.", "quantifier": "all lists of element trees, all cut points, all bytes before and after", "why_tests_cant": "every byte of every file is a crash point, and what is left depends on the nesting there", "anchors": ["libebml2/ebmlmaster.c:ReadData", "libebml2/ebmlmain.c:EBML_FindNextElement", "libebml2/ebmlelement.c:EBML_ElementSkipData", "mkclean/mkclean.c:main (1790-1852, 3046-3108)"]}
{"id": "C135", "title": "The storage of string elements over any history", "statement": "Whatever string elements a program creates, finds in a file, sets, reads, measures, writes, copies and deletes, in any order and with allocations failing, no call frees storage that is not held. When no EBML_StringSetValue ran out of memory and only elements that have a value are copied, measured and written, no call reads storage that is not the element's or past its end. A text set is the text told, a text read is told up to its first zero, a copy tells the same text, and an element keeps its text whatever is done to others, its copies included. When no value was read over another, deleting the elements gives all storage back. Findings: reading an element again never gives the storage of the first value back; EBML_StringGet on the copy of an element without value reads outside its storage; writing with defaults an element that has one and whose data was skipped, or any element after EBML_StringSetValue ran out of memory, reads through a NULL pointer.", "quantifier": "all histories of calls on any number of elements, all texts, all results of malloc", "why_tests_cant": "who holds which storage depends on the whole history, not on the last call", "anchors": ["libebml2/ebmlstring.c:EBML_StringSetValue", "libebml2/ebmlstring.c:EBML_StringGet", "libebml2/ebmlstring.c:ReadData", "libebml2/ebmlstring.c:RenderData", "libebml2/ebmlstring.c:UpdateDataSize", "libebml2/ebmlstring.c:Copy", "libebml2/ebmlstring.c:Delete", "libebml2/ebmlelement.c:EBML_ElementRender"]}
{"id": "C136", "title": "Asking the program for memory back", "statement": "NodeHibernate ends whatever the registered collectors do and answer. It asks every collector, in the order registered, at level 0, then at the least level some collector asked for above the last one, and so on, and stops after the first round in which one found memory, or when nobody asks for a further level. Levels never go down, none is tried that nobody asked for, and modules are released only when no collector found memory. The result says whether a collector found memory or a module was released, and a collector that asks for memory itself gets the answer no at once. Not covered: collectors that change the list of collectors while it is gone through.", "quantifier": "all lists of collectors, all they do and answer at any level in any state", "why_tests_cant": "collectors are callbacks of the program: their answers are any numbers and depend on what others did before", "anchors": ["corec/corec/node/node.c:NodeHibernate", "corec/corec/node/node.c:Mem_AddCollector", "corec/corec/node/nodebase.h:COLLECT_UNUSED"]}
{"id": "C137", "title": "Nodes found by name, by class and by dotted expressions", "statement": "NodeTree_FindChild gives the first node that goes by a name, letters of either case alike, where a child without a name stands for its own children; NodeTree_ChildByName gives a node below with a class and a name and prefers children, the first of them, to what is deeper; NodeTree_ChildByClass gives the first node of a class, parents first; each gives nothing only when there is no such node. A dotted expression of names of at most 31 characters leads from node to node, to a setting of the last or to the last itself, parent leads up, the search ends for every expression, and what it finds is in the tree and is what was asked for. Findings: a child with a name of 32 characters or more cannot be named in an expression, as the name is cut first; behind the first of two children with one name the second is not tried.", "quantifier": "all trees, names, classes and expressions", "why_tests_cant": "trees of any shape and expressions of any length", "anchors": ["corec/corec/node/nodetree.c:NodeTree_ChildByName", "corec/corec/node/nodetree.c:NodeTree_ChildByClass", "corec/corec/node/nodetree.c:FindChild", "corec/corec/helpers/parser/parser2.c:FindParam", "corec/corec/helpers/parser/parser2.c:ReadName"]}
{"id": "C138", "title": "The data of binary elements over histories of calls", "statement": "Whatever EBML_BinarySetData, EBML_BinaryGetData, reading, measuring, writing, copying and deleting are called on binary elements, in any order and with allocations failing or not: as long as data is read only into elements whose size is known, no call reads or writes outside of the storage of the element. What is told of an element that has a value is the bytes set last, the announced bytes of what was read last, or those of the element it was copied from, whatever was done to others; it is written as those bytes behind a head that announces their number, and an element without value is not written. A setting that fails changes nothing. The elements that are there are those given out and not deleted since, and what is given out is new. Findings: reading into an element of unknown size writes outside of its storage (the size wraps to an allocation of 0 bytes); a copy that finds no memory for its data is written as a head that announces data with none behind it; measuring an element before its data is read sets its size to 0, and the data is then not read although success is reported; after a failed reading, fresh memory is handed out as data.", "quantifier": "all histories of calls on any number of elements, all data, all failures of allocations", "why_tests_cant": "histories are unbounded and a failing allocation cannot be placed at every point by tests", "anchors": ["libebml2/ebmlbinary.c:EBML_BinarySetData", "libebml2/ebmlbinary.c:EBML_BinaryGetData", "libebml2/ebmlbinary.c:ReadData", "libebml2/ebmlbinary.c:Copy", "corec/corec/array/array.c:ArrayResize", "corec/corec/array/array.c:SizeAlign"]}
{"id": "C139", "title": "Nodes made and let go", "statement": "Over all histories of NodeCreate and of last releases: a node that is given was made by all creation functions of its class and its parents, parents first, each of which worked; when one refuses, no node is given, and the deletion functions of exactly those parents that were made whole are called, parents last; a class that is abstract, without size, without its parents or not ready gives no node and calls nothing, and any other is made when there is memory and nobody refuses. A node that goes calls the deletion functions of its class and its parents, parents last. As long as there is memory, a module is in use exactly as often as it has classes among those of living nodes, so that it can be released when they are gone, and each living node has one block of memory. Findings: when there is no memory for a node, its modules stay in use for ever; when a singleton cannot be noted, its memory is lost.", "quantifier": "all class tables, depths of inheritance, answers of creation functions and histories", "why_tests_cant": "creation functions may refuse at any depth after any history", "anchors": ["corec/corec/node/node.c:NodeCreate", "corec/corec/node/node.c:NodeCreateFromClass", "corec/corec/node/node.c:CallCreate", "corec/corec/node/node.c:CallDelete", "corec/corec/node/node.c:LockModules", "corec/corec/node/node.c:UnlockModules", "corec/corec/node/node.c:Node_Release"]}
{"id": "C140", "title": "The copying of nodes", "statement": "Node_Copy of a node onto another of the same class: every property that is saved (named with a type by the class or a parent, neither only for reading nor marked as not saved, no expression) and that the source can tell reads in the copy as in the source, with each node that was duplicated replaced by its first duplicate, if the copy takes that value; everything else and the class stay; no copied property points to a duplicated node if no duplicate is itself an original; a second copy changes no property. The expressions of the source come in front of the data of the copy in the opposite order, and a copy of a copy has them in order again; without memory some are left out and none is made up. A node of another class is not changed. Not so: one copy alone keeps the order of expressions; sizes declared above MAXDATA are safe (the buffer is overrun).", "quantifier": "all class tables with any number of parents, all nodes and lists of duplicates, all answers of the copy, all failures of allocations", "why_tests_cant": "tables, depths and lists of duplicates are unbounded", "anchors": ["corec/corec/node/node.c:Node_Copy", "corec/corec/node/node.c:CopyData", "corec/corec/node/node.c:NodeDup_Replace", "corec/corec/node/node.c:Node_AddData", "corec/corec/node/node.c:Node_MaxDataSize"]}
{"id": "C141", "title": "Tracks optimised by their common header", "statement": "With --optimize the header mkclean finds for a track whose blocks can be read is the longest beginning that all its frames share, whatever header its source declared (empty without a frame), and any beginning all frames share is a beginning of it; every block of the track, written with that header and read again, gives exactly the same frames in any lacing the shortened frames allow. The test for compressed blocks says no exactly for the tracks whose blocks are read with no more than a header put back, never yes for a block that was read, and fails exactly for a ContentEncodings without ContentEncoding. Not so: a written block can always be read again (a track whose frames are all the same is left with empty frames, and such a block at the end of a file is not read); the search is safe for blocks without bytes (a frame that was never given is looked at).", "quantifier": "all files, all blocks of a track in any number, all frames, all declared encodings", "why_tests_cant": "the header depends on all frames of all blocks of a file of any length", "anchors": ["mkclean/mkclean.c:ShrinkCommonHeader", "mkclean/mkclean.c:BlockIsCompressed", "mkclean/mkclean.c:InitCommonHeader", "mkclean/mkclean.c:ClearCommonHeader", "libmatroska2/matroskamain.c:MATROSKA_BlockReadData", "libmatroska2/matroskamain.c:MATROSKA_BlockGetFrame"]}
{"id": "C142", "title": "The handles of file streams and the listing of directories", "statement": "Over every history of opening files, opening directories, listing and deleting a file stream, with openings that work or fail: no handle is closed twice, and the handles open are those of others and exactly those the stream holds, at most a file and a directory; once it is deleted only those of others are open. A directory that is opened, after any history, is told whole: each name once and in order, hidden names left out, directories always, files with their size and the type of their extension, those without a type only when no filter is asked for; then the end, as often as it is asked, with the directory closed and the file of the stream untouched. Not so: this for names that lead nowhere (the statistics used for a link without a target are never set), nor for paths that do not fit (a file is told with the size of another one).", "quantifier": "all histories of calls, all directories, names, extensions and answers of the system", "why_tests_cant": "histories and directories are unbounded, and openings may fail at any point", "anchors": ["corec/corec/helpers/file/file_libc.c:Open", "corec/corec/helpers/file/file_libc.c:OpenDir", "corec/corec/helpers/file/file_libc.c:EnumDir", "corec/corec/helpers/file/file_libc.c:Delete", "corec/corec/helpers/file/tools.c:CheckExts"]}
{"id": "C143", "title": "Files read, written, moved in and cut, and skipping", "statement": "Over every history of reads, writes, seeks, truncations and skips on a file stream, with a system that fails or takes less at any call: the bytes of the file, its length and the place in it are those that the calls and their replies tell; a read gives the bytes written there last (0 in holes and behind truncations), never more than asked for or there, and tells success exactly when it gives all that was asked for; a write stores a beginning of its data, the whole of it exactly when success is told; a seek tells where it leads, or -1 and stays. Skipping over any stream whose reads tell what they give ends, skips exactly what is no longer told to be left, and tells success exactly when nothing is left; files and buffers over files are such streams. Not so: the end of the file is told only at its end (a short read of the system tells it too); a skip backwards moves (it tells success and stays); a stream that tells success without a byte is left (the skip never ends); a read of 2^63 bytes or more tells how much it gave.", "quantifier": "all histories of calls, all contents, all answers of the system, all streams with such reads", "why_tests_cant": "histories are unbounded and the system may fail or give less at any call", "anchors": ["corec/corec/helpers/file/file_libc.c:Read", "corec/corec/helpers/file/file_libc.c:Write", "corec/corec/helpers/file/file_libc.c:Seek", "corec/corec/helpers/file/file_libc.c:SetLength", "corec/corec/helpers/file/streams.c:DummySkip", "corec/corec/helpers/file/bufstream.c:BufRead"]}
{"id": "C144", "title": "Modules that leave", "statement": "When a module leaves the context, whatever classes and singletons there are: it ends; its classes lose their description and no other class does; the classes that stop being ready are its own and all derived from them; exactly the class deletion functions of these are called, each once, and that of a class after those of all classes derived from it; its singletons are released, each once, and no other. When modules leave one after the other, no deletion function is called twice, and when all have left, no class is ready and the function of each class that was has been called. Not so: this when a module has a class derived from the class of modules (after NodeContext_Cleanup it stays ready without description, which is then read through NULL).", "quantifier": "all class tables, depths of derivation, modules and orders of leaving", "why_tests_cant": "class tables, derivations across modules and orders of leaving are unbounded", "anchors": ["corec/corec/node/node.c:UnRegisterModule", "corec/corec/node/node.c:UnInitClass", "corec/corec/node/node.c:NodeContext_Cleanup"]}
{"id": "C145", "title": "Rates in text", "statement": "Every rate of bytes in a second, also a negative one, is shown in bits: from a million bits on in Mbit/s with two decimals, rounded half up from the exact number of bits; below in kbit/s, cut towards zero. The text is cut to the buffer and terminated, and nothing behind the buffer changes. Not so: kbit/s rounded to the nearest (999992 bits are shown as 999 kbit/s).", "quantifier": "all rates, all buffers and lengths", "why_tests_cant": "2^32 rates, any buffer length", "anchors": ["corec/corec/helpers/parser/strtypes.c:ByteRateToString", "corec/corec/helper.h:Scale32"]}
{"id": "C146", "title": "Streams opened and closed", "statement": "Over every history of streams opened, with openings that fail at any point (unknown protocol, no memory, the open itself, no memory for the buffer), and closed in any order: no stream and no handle is released twice; a stream is given exactly when the open tells no error or that more data is needed; the streams given and not closed are different and alive, buffered ones with the stream under them, and nothing else is; the open handles are theirs and those of others. An opening that fails leaves nothing behind, and when all that was given is closed, nothing is left.", "quantifier": "all histories, failures and orders of closing", "why_tests_cant": "histories are unbounded and openings may fail at any point", "anchors": ["corec/corec/helpers/file/streams.c:StreamOpen", "corec/corec/helpers/file/streams.c:StreamClose", "corec/corec/helpers/file/bufstream.c:BufDelete"]}
{"id": "C147", "title": "Properties of classes are found", "statement": "For every class, whatever it derives from and whatever each describes, getting, setting and unsetting a property finds the first description of the kind, from the class itself on: a function, or data, data of one bit always together with a bit for that property (the first one when the class itself describes something of the kind); for events all handlers, those of the class first and each description in its order; nothing exactly when there is none. Read-only data are never found to be set, and no entry outside the table is used. It is needed that a property is not an event for one class and something else for another, and that data of one bit have their bit in the same description. Not so: the bit of a derived class that describes nothing else is used; read-only data of a derived class hide data of the base class that can be set.", "quantifier": "all class hierarchies, descriptions and property numbers", "why_tests_cant": "derivations and descriptions are unbounded; the search depends on the whole table", "anchors": ["corec/corec/node/node.c:BuildMetaLookup", "corec/corec/node/node.c:AddLookup", "corec/corec/node/node.c:CmpLookup", "corec/corec/node/node.c:MetaGet", "corec/corec/node/node.c:MetaSet", "corec/corec/node/node.c:MetaUnSet"]}
{"id": "C148", "title": "What classes tell about their properties", "statement": "For every class, whatever it derives from and whatever each describes: anything asked about a property other than its text is told by the first description that says something, written or answered by a function, from the class itself on, or 0. A text is what the class itself says first; else the first answer of a function of any class it derives from; else, when the context has texts, the first text it has for the class and those it derives from, or the empty text; else the first text written in a class it derives from. The text given to callers is never NULL. Properties are enumerated each as often as its type is written, those of classes derived from first. A property is found by name whatever the case of letters, in the nearest class that names it. Not so: a text written in a class derived from is found when the context has texts.", "quantifier": "all class hierarchies, descriptions, answers of functions, texts of contexts and names", "why_tests_cant": "derivations and descriptions are unbounded and functions may answer anything", "anchors": ["corec/corec/node/node.c:NodeParamMeta", "corec/corec/node/node.c:NodeClass_Str", "corec/corec/node/node.c:MetaEnum", "corec/corec/node/node.c:MetaFindParam"]}
{"id": "C149", "title": "Types and units by their names", "statement": "For every text and every format, also none: the number found is that of the type of that name, whatever the case of letters, with the unit of the name the format gives, or no unit when there is none of it; 0 when no type has the name. No name stands for two types or two units, and what a type and a unit are called is found again as that type with that unit, whatever the other bits. The names of units are read within their table for all numbers. Not so: the names of types for all numbers (42 to 63 are read outside the table); that the type none can be told from an unknown name.", "quantifier": "all texts, formats and 32-bit type numbers", "why_tests_cant": "texts are unbounded; 2^32 numbers", "anchors": ["corec/corec/node/node.c:NodeContext_FindDataType", "corec/corec/node/node.c:NodeContext_TypeName", "corec/corec/node/node.c:NodeContext_UnitName"]}
