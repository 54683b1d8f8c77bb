# Formal model of Matroska-Org/foundation-source in Rocq

Source studied: `/repo` (corec, libebml2, libmatroska2), read as text, never built or run.
All Coq sources are in `rocq/theories`, logical prefix `Verif`.

## Conventions of the model

* Bytes, C integers and file positions are `Z`. Every place where the C type wraps, truncates or is
  undefined is written out (`mod 2^32`, `s_wrap`, explicit error outcome, ...).
* Out-of-bounds accesses, NULL dereferences and undefined arithmetic are separate outcomes (`Bad`, `Null`
  of `res`), never silently total. A theorem whose conclusion is `= Ok ...` therefore also says that none of
  them happens.
* Loops without an evident bound run on fuel and answer `Fuel` when it runs out; theorems show that a
  stated amount is enough (or, in findings, that no amount is).
* Each definition of a model file cites the file and lines it models, and says where it simplifies.
* Files per area: `X.v` (model, definitions only), `XSpec.v` (specification, independent of the model:
  encodings as relations, positional values, orders), `XProofs*.v` (lemmas), `PropX.v` (final theorems
  `Cnn_...`, each followed by `Print Assumptions` and an `Example` meeting its hypotheses).
* `..._refuted` theorems are findings: the faithful model of the code violates the statement one would
  expect; the true restricted version is proved beside them.

## Areas

| files | code |
|-------|------|
| Base | C integers, byte lists, big-endian values |
| Vint, EbmlId, EltHead, IntElt, Void, Crc, CrcTable (PropCodec) | element codecs: libebml2 ebmlmain.c, ebmlelement.c, ebmlnumber.c, ebmlvoid.c, ebmlcrc.c |
| Arr (PropArr), NodeTree (PropNode) | corec array.c, nodetree.c; child lists of ebmlmaster.c |
| Stream (PropStream) | corec memstream.c, bufstream.c |
| Ebml, Finder (PropFinder) | schemas and EBML_FindNextElement |
| Tree, TreeRead (PropTree), Create (PropCreate) | element trees: sizes, writing, reading, creation, copies, checks |
| Block, Frame (PropBlock), BlockTime (PropTime), Lzo, LzoBlock (PropLzo) | libmatroska2 blocks, lacing, timestamps, LZO |
| MkSchema (PropMk) | libmatroska2/matroska_sem.c: the element tables of Matroska |
| Cues (PropCues), ClusterSort (PropCluster), Tracks (PropTracks) | libmatroska2 cues, seek heads, clusters, tracks and links |
| Durations (PropDurations) | audio frame durations, dates |
| Text, CodePages (PropText), Str (PropStr), Printf, Scan (PropPrintf), Path (PropPath) | corec text conversion, strings, formatted printing and scanning, paths |
| Expr (PropExpr) | base 64, numbers, words and fractions in expressions (parser2.c 576-1028) |
| Validator (PropValidator) | mkvalidator/mkvalidator.c: all its checks |
| Remux (PropRemux) | mkclean --remux: decode times, cluster boundaries, distribution of blocks and frames (mkclean.c 2300-2705) |
| Clean (PropClean) | pieces of mkclean: common header, main track, new cue points, finding the blocks of cue points, times of written clusters, scale (mkclean.c 411-449, 548-550, 657-833, 1402-1484, 1870-1881) |
| Layout (PropLayout) | mkclean: the sizes and positions of SeekHead, level 1 elements, Cues and clusters, and the cue points (mkclean.c 304-397, 691-697, 2095-3030, 3122-3187) |
| Reduce (PropReduce) | mkclean: cleaning of an element and all below it before it is written (mkclean.c 171-243) |
| TrackClean (PropTrackClean) | mkclean: display sizes and cropping, the tracks kept, conversion of old stereo modes, order of the first elements of a track (mkclean.c 857-892, 974-1400) |
| Notify (PropNotify) | corec: listeners of a node, with callbacks that change the listeners or delete the node (node.c 435-545, 710-722, 1396-1434, 1712-1868) |
| NodeData (PropNodeData) | corec: data attached to nodes, references held by it, comparison of fractions (node.c 16-62, 466-630, 710-718, 1870-1874, 1909-1916, 1963-2008) |
| FindId (PropFindId) | libebml2: EBML_FindNextId (ebmlmain.c 301-377) |
| AttachSort (PropAttachSort) | libmatroska2: MATROSKA_AttachmentSort and its comparison (matroskamain.c 806-810, 2142-2212) |
| Encode (PropEncode) | mkclean: key frame marks, lacing flags and the choice of compression (mkclean.c 451-527, 1942-1953, 2239-2262, 2740-2886) |
| Classes (PropClasses) | corec: registration, initialisation, lookup and enumeration of node classes (node.c 130-310, 937-956, 1135-1233, 1293-1388, 1456-1506, 1648-1710) |
| Props (PropProps) | corec: how properties of nodes are resolved and kept in the object (node.c 981-1136, 1920-1981, 2041-2543) |
| Xml (PropXml) | corec: the XML text writer (parser2.c 246-254, 271-292, 316-574) |
| MkArgs (PropMkArgs) | mkclean: the command line and the default output (mkclean.c 1556-1679, 1704-1726) |
| MkHead (PropMkHead) | mkclean: the head read and written, the names of programs (mkclean.c 557-655, 1748-1766, 1955-2006, 2033-2083) |
| MkInfo (PropMkInfo) | mkclean: level 1 elements kept and the Segment Info (mkclean.c 1789-1914, 2084-2093) |
| MkParts (PropMkParts) | mkparts: the segments found, CopyTo, the names and files written (mkparts.c 117-335) |
| Life (PropLife) | lifetimes: counts, references, trees and the cascade of a release (node.c 632-722, 1397-1440, 2248-2262; nodetree.c 11-74) |
| ReadCl (PropReadCl) | mkclean: blocks that cannot be read (mkclean.c 245-279), over Life |
| Zlib (PropZlib) | frames and blocks of zlib tracks (matroskamain.c 144-226 and the CONFIG_ZLIB parts of 1014-1373, 1607-1943, 1978-2121), zlib itself a parameter |
| Texts (PropTexts) | texts of IDs, times and colours, sizes for elements of unknown size (ebmlelement.c 78-82, 132-135, 184-205, 228-240; strtypes.c 125-160) over Printf |
| Guess (PropGuess) | mkclean: sampling frequency from Vorbis headers (mkclean.c 894-972), the decoder a parameter |
| MkRun (PropMkRun) | mkclean: files opened, written and erased (mkclean.c 1686-1733, 3201-3239; file_libc.c 53-91, 262-277), the work on the data a parameter |
| Cut (PropCut) | rows of elements written and read one after the other (as in mkclean.c 1790-1852, 3046-3108), files that end too early |
| StrMem (PropStrMem) | the storage of string elements (ebmlstring.c whole, ebmlelement.c 24-53, 258-300): histories of calls with a table of blocks |
| Collect (PropCollect) | NodeHibernate and its collectors (node.c 2848-2908); NodeContext_Cleanup a parameter |
| Names (PropNames) | nodes by name and class (nodetree.c 86-151), dotted expressions (parser2.c 107-211); NodeFindDef and NodeSingleton parameters |
| BinMem (PropBinMem) | the data of binary elements (ebmlbinary.c whole) with the wrap of size_t in ArrayAlloc (array.c 170-189, 254-260) |
| Make (PropMake) | creation and deletion of nodes over a chain of classes, module counts (node.c 425-433, 632-833, 1236-1291, 1397-1434); loading of modules and singletons already there left out |
| NodeCopy (PropNodeCopy) | copying of nodes (node.c 2724-2801) over tables of properties; a property is independent of the others, the copying of an expression's nodes (ExprDup) a function |
| Optim (PropOptim) | the common header of the blocks of a track from their bytes in the file (mkclean.c 1402-1484, 2237-2295), without the compression libraries |
| Dirs (PropDirs) | handles of file streams and listing of directories (file_libc.c 53-91, 156-241); the file system is a function of paths and a directory does not change while it is listed |
| FileIO (PropFileIO) | reading, writing, seeking and truncating of file streams over POSIX files with arbitrary answers (file_libc.c 94-155), skipping (streams.c 12-25), also through Stream's buffer |
| Unreg (PropUnreg) | modules leaving the context (node.c 374-401, 938-959); what deletion functions do is not looked at |
| Rates (PropRates) | rates in text (strtypes.c 162-178) |
| Opens (PropOpens) | streams opened and closed with what they take (streams.c 199-226, bufstream.c 36-51); one holder of each, contents not looked at |
| Lookup (PropLookup) | the tables of properties of classes and the search in them (node.c 980-1136, 2041-2061, 2126-2166, 2336-2376); what is done with the entry found is in other areas or not modelled |
| Told (PropTold) | what classes tell about properties, their texts, enumeration and names (node.c 1553-1618, 2010-2034, 2545-2561); descriptions are lists, functions any answers |
| TypeNames (PropTypeNames) | the names of types and units (node.c 64-131, 1876-1907), with a table read outside told apart |

## Per property: what is modelled and how it is proved

Every property below is expressed in the model. `Examples` beside each theorem show that its hypotheses can be met.

| id | title | model | method | theorems |
|----|-------|-------|--------|----------|
| C01 | Element size codec round trip | Vint.v: size codec, ebmlmain.c 108-147, 379-453 | arithmetic per length against a positional specification (VintSpec.v) | 4 (proved), of them 2 findings |
| C02 | Element size coding is minimal | Vint.v | arithmetic | 1 (proved), of them 0 findings |
| C03 | Unknown-size marker | Vint.v | arithmetic | 4 (proved), of them 0 findings |
| C04 | Size reader never looks past its buffer | Vint.v | case analysis on the length the first byte announces | 4 (proved), of them 0 findings |
| C05 | Signed lace-size codec | Vint.v: signed codec, ebmlmain.c 149-173, 406-426, 455-467 | bias arithmetic; refutations by computed witnesses | 3 (proved), of them 2 findings |
| C06 | Element ID codec | EbmlId.v: ebmlelement.c 207-255, ebmlmain.c 175-189 | arithmetic, prefix-freeness of ID codes | 3 (proved), of them 0 findings |
| C07 | Unsigned integer elements round trip on minimal length | IntElt.v: ebmlnumber.c | induction over the byte count | 2 (proved), of them 0 findings |
| C08 | Signed integer elements | IntElt.v; signedness of char is a parameter | induction over the byte count | 7 (proved), of them 2 findings |
| C09 | CRC-32 is the IEEE CRC and is chunk independent | Crc.v, CrcTable.v: ebmlcrc.c, table transcribed as data | the table is shown equal to the bitwise CRC of CrcSpec.v, then induction over the bytes | 6 (proved), of them 1 findings |
| C10 | CRC-32 detects short corruption | Crc.v | linearity over GF(2), injectivity of the shift register on 32 bits | 2 (proved), of them 0 findings |
| C11 | Void element fills exactly the requested space | Void.v: ebmlvoid.c | arithmetic | 2 (proved), of them 0 findings |
| C12 | Replacing a Void leaves a parseable filler | Void.v | arithmetic | 4 (proved), of them 1 findings |
| C13 | Master size is the sum of its parts | Tree.v: sizes and rendering (ebmlmaster.c, ebmlelement.c and all leaf classes) | nested induction over trees | 7 (proved), of them 1 findings |
| C14 | Render then read restores the tree | Tree.v, TreeRead.v, Finder.v | nested induction: the reader is run on the encoding relation of TreeSpec.v | 5 (proved), of them 1 findings |
| C15 | Master read verifies the checksum | TreeRead.v, Crc.v | C14 plus C09/C10 | 4 (proved), of them 2 findings |
| C16 | Element finder stays inside its bounds | Finder.v: EBML_FindNextElement as a fuelled state machine over any stream | invariant of the scratch buffer, variant for termination | 4 (proved), of them 1 findings |
| C17 | Element finder position contract | Finder.v | invariant relating the buffer to the file; completeness by tracking one header through the loop | 8 (proved), of them 3 findings |
| C18 | Mandatory children and defaults | Create.v | list refinement over schema entries | 11 (proved), of them 3 findings |
| C19 | Child search, count and append behave as a list | NodeTree.v | list refinement | 7 (proved), of them 1 findings |
| C20 | Node tree links stay consistent | NodeTree.v: nodetree.c pointers as finite maps | representation invariant | 8 (proved), of them 2 findings |
| C21 | Array sort returns a sorted permutation | Arr.v: array.c sorts | sortedness and permutation by induction on the fuelled loops | 5 (proved), of them 1 findings |
| C22 | Sorted array search and update | Arr.v | binary search invariant | 7 (proved), of them 0 findings |
| C23 | Array edit operations are list edits | Arr.v | list refinement | 7 (proved), of them 0 findings |
| C24 | FIFO is a queue | Arr.v | queue refinement | 4 (proved), of them 0 findings |
| C25 | Block header round trip | Block.v: matroskamain.c, matroskablock.c | bit arithmetic by byte enumeration; codec relation block_code in BlockSpec.v | 4 (proved), of them 1 findings |
| C26 | Xiph lacing round trip | Block.v | induction on the frame list | 2 (proved), of them 1 findings |
| C27 | EBML lacing round trip | Block.v | induction on the frame list, signed codec C05 | 2 (proved), of them 1 findings |
| C28 | Fixed lacing round trip | Block.v | induction on the frame list | 3 (proved), of them 1 findings |
| C29 | Block size announces the bytes rendered | Block.v | size equality by cases on the lacing | 2 (proved), of them 0 findings |
| C30 | Block reading is safe on malformed data | Block.v | invariants of the lace readers on any bytes | 7 (proved), of them 4 findings |
| C31 | Header-stripping compression is lossless | Block.v | induction on frames | 3 (proved), of them 1 findings |
| C32 | Block timestamps | BlockTime.v | division lemmas with explicit 64-bit wraps | 13 (proved), of them 5 findings |
| C33 | Frame time interval lookup | Frame.v | induction on the frame table | 8 (proved), of them 1 findings |
| C34 | Cue ordering and lookup | Cues.v, Arr.v | total preorder + C21 | 6 (proved), of them 3 findings |
| C35 | Seek and cue positions are segment relative | Cues.v | list refinement and arithmetic | 8 (proved), of them 2 findings |
| C36 | LZO decompression is bounded | Lzo.v: lzokay.c | bisimulation between the decoder and the LZO1X grammar of LzoSpec.v | 7 (proved), of them 1 findings |
| C37 | Memory stream is a bounded file | Stream.v: memstream.c | refinement to a list-backed file | 4 (proved), of them 2 findings |
| C38 | Buffered stream transparency | Stream.v: bufstream.c | refinement to the unbuffered stream | 7 (proved), of them 2 findings |
| C39 | UTF-8 conversion round trip | Text.v: charconvert_utf8.c | arithmetic per length, induction over text | 7 (proved), of them 2 findings |
| C40 | Bounded string copies | Str.v | list induction over buffers | 6 (proved), of them 1 findings |
| C41 | ASCII case-insensitive comparison | Str.v | list induction | 6 (proved), of them 1 findings |
| C42 | FourCC text round trip | Str.v | byte arithmetic | 7 (proved), of them 1 findings |
| C43 | Path helpers | Path.v: tools.c | list induction, specification on components | 21 (proved), of them 5 findings |
| C44 | Date elements round trip | Durations.v: ebmldate.c, date_libc.c | division lemmas | 8 (proved), of them 3 findings |
| C45 | Codec frame durations use in-range tables | Durations.v: matroskablock.c 15-313, tables as data | case analysis, finite enumeration of header fields | 7 (proved), of them 1 findings |
| C46 | Formatted printing stays in its buffer | Printf.v: str.c 186-648 | invariant on (written, remaining) and induction over format pieces | 7 (proved), of them 4 findings |
| C47 | Float elements keep the bit pattern | IntElt.v | byte arithmetic | 1 (proved), of them 0 findings |
| C48 | Reading arbitrary bytes is safe and ends | TreeRead.v, Finder.v | variant on the file left; mutual induction on fuel | 3 (proved), of them 2 findings |
| C49 | Copies are written as the same bytes | Create.v, Tree.v | nested induction over trees | 4 (proved), of them 3 findings |
| C50 | Context check reports every violation | Create.v | list induction, arbitrary callback | 3 (proved), of them 1 findings |
| C51 | Automatic lacing keeps the frames | Block.v | C26-C29 applied to the lacing chosen | 2 (proved), of them 1 findings |
| C52 | Released block data can be read again | Frame.v, Block.v | C25-C31 | 2 (proved), of them 0 findings |
| C53 | A cue leads to its block | Cues.v | list search + arithmetic of C32 | 3 (proved), of them 1 findings |
| C54 | Sorting a cluster | ClusterSort.v | C21 with the comparison shown total on the domain | 6 (proved), of them 4 findings |
| C55 | LZO-compressed blocks are restored | LzoBlock.v, Lzo.v | induction on frames + C36 | 4 (proved), of them 2 findings |
| C56 | Code page conversion round trip | Text.v, CodePages.v (generated tables) | the tables are checked as finite maps, then induction over text | 3 (proved), of them 0 findings |
| C57 | UTF-16 conversion | Text.v | arithmetic, induction over text | 3 (proved), of them 1 findings |
| C58 | Index in a list of names | Str.v | list induction | 2 (proved), of them 0 findings |
| C59 | Numbers and GUIDs as text | Printf.v | C46 instantiated | 5 (proved), of them 1 findings |
| C60 | Formatted scanning | Scan.v: str.c 650-829 | induction over format pieces and digits | 5 (proved), of them 2 findings |
| C61 | Setting the compression of a track | Tracks.v: matroskamain.c 2369-2449 | children-list lemmas (TracksProofs.v) | 6 (proved), of them 2 findings |
| C62 | Codec private data kept as read | Tracks.v: matroskamain.c 266-412 | as C61 | 4 (proved), of them 2 findings |
| C63 | Linking a block to its track | Tracks.v: matroskamain.c 928-963, 2255-2367 | list search | 9 (proved), of them 2 findings |
| C64 | Linking a cluster to the tracks | Tracks.v: matroskamain.c 538-556 | induction over the cluster against the relation left_of | 2 (proved), of them 0 findings |
| C65 | Keyframe and discardable flags | Tracks.v: matroskamain.c 740-785 | C25 | 4 (proved), of them 2 findings |
| C66 | The Matroska schema is unambiguous and its files are read back | MkSchema.v is the whole of matroska_sem.c and the EBML header tables, generated from the source; the tree and finder models take it as their schema | distinctness, validity and typing of the tables by computation lifted to all indices; `conforms` (MkSpec.v) implies the hypotheses of C14 by induction on trees; lookups by induction on the chain | 8 (proved), of them 0 findings |
| C67 | Making Matroska elements with their defaults | Create.v with the schema of MkSchema.v | a rank on the mandatory masters by computation; `needs_many` (MkSpec.v) against completeness by induction both ways; the v4 list is exactly the least fixpoint | 2 (proved), of them 0 findings |
| C68 | Base 64 | Expr.v: BufferToBase64, ExprIsBase64 | induction on the buffer in steps of three against RFC 4648 (ExprSpec.v); loop invariant with the 64-bit accumulator | 6 (proved), of them 1 findings |
| C69 | Words and numbers in expressions | Expr.v: the scanners of parser2.c | induction on the digits with ScanSpec.v; words by induction; FourCC by C42 | 11 (proved), of them 1 findings |
| C70 | Fractions made and read | Expr.v: SimplifyFrac, ExprIsFrac, DoubleToFrac | Euclid by induction on the bits (two turns halve), least number of halvings, positional values | 8 (proved), of them 3 findings |
| C71 | Fractions shown | Expr.v: FractionToString over Printf.v | division bounds; the text by the printing theorem of C41; reading back by C70 | 6 (proved), of them 2 findings |
| C72 | What a verdict of mkvalidator means | Validator.v: main of mkvalidator over element trees (MkSchema.v) | invariant of the loop over the level 1 elements (which element is kept, what was checked), signs and low byte of the lor of the codes | 5 (proved), of them 2 findings |
| C73 | mkvalidator reports every violation of the schema | Validator.v: check_profile over Create.v | induction on the tree with `violates` and `within` (ValidatorSpec.v); the table of each master by C66 | 1 (proved), of them 0 findings |
| C74 | mkvalidator checks seek heads | Validator.v: check_seek_head | induction on the entries against `leads`, `entry_fine` (ValidatorSpec.v) | 3 (proved), of them 2 findings |
| C75 | mkvalidator checks video sizes | Validator.v: check_video | lookups against `first_of`; Euclid against Z.gcd; case analysis of the signs | 4 (proved), of them 2 findings |
| C76 | mkvalidator checks tracks | Validator.v: check_tracks | names by C40 (`same_text`), links and attached files by induction | 3 (proved), of them 2 findings |
| C77 | mkvalidator checks blocks and clusters | Validator.v: check_lacing, check_pos_size, check_video_start, scan_tracks | induction on clusters and blocks with the table of tracks as invariant; per-track projection of the two arrays; non-termination for every fuel | 7 (proved), of them 3 findings |
| C78 | mkvalidator checks cue points | Validator.v: check_cues over Cues.v and BlockTime.v | induction on the cue points, blocks by C53 | 2 (proved), of them 1 findings |
| C79 | mkvalidator finds unknown elements and voids | Validator.v: check_unknown | induction on the tree | 3 (proved), of them 1 findings |
| C80 | Remux keeps every frame | Remux.v: the loops of mkclean --remux over clusters, tracks, blocks and frames | invariant per track: what is written tiles what was read, with one block in progress (`tiles`, RemuxSpec.v); four nested inductions | 1 (proved), of them 0 findings |
| C81 | Remux begins clusters at key frames | Remux.v: decode_times, key_times, thin over Arr.v | the array is a subsequence at all times; removal of the right entry by C46 when sorted; induction with the dropped entries (`spaced`) | 1 (proved), of them 0 findings |
| C82 | Remux comes to an end | Remux.v: remux | totality of each loop with the blocks left as measure; local times by C19; non-termination for every fuel by a stuck state | 3 (proved), of them 2 findings |
| C83 | Remux puts blocks where they belong | Remux.v: remux | per cluster: the round that ends it, the decode times in order, `item_ok` (RemuxSpec.v) | 3 (proved), of them 2 findings |
| C84 | The header mkclean strips is shared by all frames | Clean.v: common, shrink, header_of | invariant of the fold: the header is the longest shared beginning of the frames so far | 2 (proved), of them 1 findings |
| C85 | The main track of mkclean | Clean.v: get_main_track | induction on the tracks | 3 (proved), of them 1 findings |
| C86 | Cue points made anew | Clean.v: generate_cues | induction over the clusters with the last cue point; key frames by an independent relation `is_key` | 3 (proved), of them 2 findings |
| C87 | Cue points find their clusters | Clean.v: link_cue, link_cues | induction over the clusters | 3 (proved), of them 1 findings |
| C88 | Written clusters rise in time | Clean.v: write_clusters over BlockTime.v | induction over the clusters with the time before; C32 for the blocks | 4 (proved), of them 1 findings |
| C89 | The scale mkclean chooses | Clean.v: scale_loop | induction on the number of doublings | 2 (proved), of them 1 findings |
| C90 | The Cues of mkclean settle | Layout.v: settle, update_cues | the next size is monotone in the size supposed and bounded, so the iteration rises or falls to a fixed point; sizes by an independent relation `cues_size` (LayoutSpec.v) and by refinement of the element tree | 3 (proved), of them 1 findings |
| C91 | Where mkclean puts things | Layout.v: make_plan, write_file | positions as running sums (`consecutive`); the shift between the plan and the file tracked through the size of the SeekHead and the length of the segment head | 4 (proved), of them 2 findings |
| C92 | What mkclean leaves of an element | Reduce.v: reduce over Create.v | structural induction on the tree; the deletion loop of EBML_MasterCheckContext by an invariant on the children already passed; the result related to the source by an independent relation `cleaned` (ReduceSpec.v) | 5 (proved), of them 2 findings |
| C93 | What mkclean does to display sizes | TrackClean.v: clean_display, clean_crop | case analysis over the unit and the sizes present, exact division in the rescaling; result against an independent record `displayed` (TrackCleanSpec.v) | 5 (proved), of them 4 findings |
| C94 | The tracks mkclean keeps | TrackClean.v: walk, clean_tracks | induction over the tracks; result against the relation `chosen` (TrackCleanSpec.v) | 2 (proved), of them 0 findings |
| C95 | Old stereo modes are converted | TrackClean.v: walk, combine, clean_tracks | invariant over the restarts (originals that follow their source, added tracks made of two of them), measure: the tracks with old modes; pigeonhole for free numbers | 3 (proved), of them 2 findings |
| C96 | The first elements of a track | TrackClean.v: front | each step moves the first of its kind over others; permutation and filters preserved | 1 (proved), of them 0 findings |
| C97 | Listeners are a list of registrations | Notify.v: add_notify, rem_notify, notify, steps (heap cells, callbacks as lists of actions) | forward simulation between the linked list on a heap with freed cells and a list of registrations with a cursor per running notification (NotifySpec.v), by induction on the fuel and the actions | 1 (proved), of them 0 findings |
| C98 | A notification calls everyone once | Notify.v: notify | the cursor of the specification only moves forward over the registrations; subsequence invariant | 2 (proved), of them 0 findings |
| C99 | Listeners may withdraw themselves | Notify.v: notify, rem_notify, del_node | invariant of well-behaved callbacks on the specification, carried over by C97; witnesses computed for the findings | 7 (proved), of them 6 findings |
| C100 | What a notification returns | Notify.v: notify | invariant on the number returned and the registrations left | 2 (proved), of them 1 findings |
| C101 | Data attached to a node is read back | NodeData.v: set_data, add_data, remove_data, read_data | refinement of the one list of entries to a stack per identifier and type (NodeDataSpec.v): codes are injective below 2^(W-8) | 6 (proved), of them 1 findings |
| C102 | References held by data are counted | NodeData.v: set_data, add_data, remove_data, free_all | invariant: references taken = entries of the list that refer to the node | 3 (proved), of them 1 findings |
| C103 | Fractions are compared exactly | NodeData.v: eq_frac | products of 32-bit numbers fit 64 bits; cross multiplication | 3 (proved), of them 1 findings |
| C104 | Looking for one kind of element | FindId.v: find_next_id | closed form of the loops over the ID and the size by case analysis on the leading byte, against the encodings of EbmlIdSpec.v; a covering theorem | 7 (proved), of them 3 findings |
| C105 | The order of attachments | AttachSort.v: attach_cmp, attach_sort | the quick sort stays in bounds when the items that are below themselves are unique extremes and so never the pivot; insertion with a comparison that agrees with an order up to ties gives that order | 6 (proved), of them 3 findings |
| C106 | Lacing flags and key frames after mkclean | Encode.v: link_clusters, fix_all, lacing_flags | induction over the clusters with the array of laced tracks; witness for the finding | 3 (proved), of them 1 findings |
| C107 | The compression that mkclean leaves | Encode.v: encode_track, clean_encoding | case analysis of the choice over what the track declares (TracksSpec.v), with the lemmas of C61; findings proved for all such tracks or by witness | 14 (proved), of them 4 findings |
| C108 | The order of class registration does not matter | Classes.v: register_all, init_class, find_class | invariant of the registry, kept by the cascade of initialisation (induction on the number of waiting classes: no class waits whose parent is ready); induction on readiness; uniqueness of sizes and methods gives independence of the order | 6 (proved), of them 1 findings |
| C109 | Enumerating classes | Classes.v: enum_list, enum_best | candidates by induction over the array; the sort of C21 under a total order; the running best is the head of the sorted list | 2 (proved), of them 1 findings |
| C110 | The nearest declaration of a property counts | Props.v: build, resolve, property | invariant of the merged table (sorted by ID, group of an ID determined by the declarations met so far), insertion lemma through the search of C22, correctness of the binary search on a table split in below, equal and above; the relation of PropsSpec.v is functional | 5 (proved), of them 2 findings |
| C111 | A property kept in the object is read back | Props.v: get_value, set_value, get_prop, set_prop | writes and reads of byte ranges extensionally, words of four bytes with bitwise reasoning on masks, through C110; witnesses for the findings | 9 (proved), of them 2 findings |
| C112 | A document written as XML reads back | Xml.v: element_xml, element_begin, element_append_data, element_end, element_end_data; XmlSpec.v: put_document, read_xml | the reader is a machine over characters; its state is followed through every call, by induction on the tree; witnesses for the findings | 9 (proved), of them 7 findings |
| C113 | Attributes written as XML | Xml.v: text_attrib, data_to_string, escape, bin_loop | induction on strings and byte strings, with the printing theorem of C46 | 2 (proved), of them 0 findings |
| C114 | The command line of mkclean | MkArgs.v: command, parse, flag, value; MkArgsSpec.v: asked, words | invariant of the settings over the options read so far, congruence of all comparisons under upper and lower case, induction on the options; witnesses for the findings | 9 (proved), of them 4 findings |
| C115 | The file that mkclean writes by default | MkArgs.v: default_output | through the path theorems of C43, lengths of all buffers; witnesses for the findings | 4 (proved), of them 2 findings |
| C116 | Which files mkclean takes | MkHead.v: check_head, source_profile, opened | induction on the elements, the state after a prefix as a fold; last element of a kind; witnesses for the findings | 5 (proved), of them 2 findings |
| C117 | The head that mkclean writes | MkHead.v: written_head, dest_profile, dest_optimize | case analysis on profiles; reading back through C116; witnesses for the findings | 6 (proved), of them 1 findings |
| C118 | The names that mkclean leaves in a file | MkHead.v: names | the chain of copies into buffers of 1024 is one cut at the end; induction on the passes; witnesses for the findings | 5 (proved), of them 1 findings |
| C119 | What mkclean keeps of a segment | MkInfo.v: take, collect, collected | invariant of the loop over the elements; witnesses for the findings | 4 (proved), of them 1 findings |
| C120 | Scale, duration and order of the Segment Info | MkInfo.v: prepare, grow, reorder, set_duration, set_date | list splitting at the first child of a kind with distinct addresses, induction on the doubling, arithmetic of rationals; non-termination by induction on the fuel | 4 (proved), of them 1 findings |
| C121 | mkparts finds the files in a file | MkParts.v: next_elt, seek_segment, scan, segments | invariant of the loops over C16/C17 (the finder ends, is sound and jumps over nothing), induction on the list of files; witnesses for the findings | 4 (proved), of them 2 findings |
| C122 | mkparts copies | MkParts.v: copy_loop, copy_to | induction on the fuel; non-termination for every fuel | 2 (proved), of them 1 findings |
| C123 | What mkparts writes | MkParts.v: mkparts, write_parts, message, out_name | stepping the printing loop of C46 piece by piece with any arguments; C43 for the path | 4 (proved), of them 2 findings |
| C124 | Nodes are not used after they are freed | Life.v: exec, release, destroy, set_ref, set_parent | invariant of the counts with a set of nodes being destroyed and counts in hand; induction on the fuel, which the number of nodes with a count bounds; frame of every cascade; witness for the finding | 4 (proved), of them 1 findings |
| C125 | Nodes are freed when nothing holds them | Life.v: release, destroy | the same invariant; induction on the rank for what is left; witness for the cycle | 5 (proved), of them 1 findings |
| C126 | Blocks that cannot be read are dropped | ReadCl.v: read_cluster, read_loop | induction on the children over the invariant of C124/C125 (a child deleted changes nothing for its brothers); witness for the finding | 2 (proved), of them 1 findings |
| C127 | Frames compressed with zlib come back | Zlib.v: uncompress_frame, compress_frame | zlib as a parameter with its promises as a simulation relation (ZlibSpec.v); induction on the fuel; a toy codec shows that the promises can be kept | 5 (proved), of them 1 findings |
| C128 | Blocks of zlib tracks | Zlib.v: z_render, z_update, z_read_data, z_read_frames | induction on the frames over the block proofs of C25-C28 with the compressed frames; case analysis for any library; general refutations with witnesses | 9 (proved), of them 3 findings |
| C129 | An element of unknown size can be given its size afterwards | Texts (infinite_force_size), EltHead | case analysis on the length kept for the size; round trip of coded sizes (C01); the promise is refuted for every element of unknown size | 3 (proved), of them 1 findings |
| C130 | The text of an ID shows its bytes | Texts (id_to_string) over Printf | induction over the four bytes with the printer theorems of C69; injectivity of fixed digits | 4 (proved), of them 2 findings |
| C131 | The texts of times and colours say what they are | Texts (tick_to_string, rgb_to_string) over Printf | division identities for the clock; splitting fixed digits; injectivity of the clock; colours with 128 or more of red refuted | 5 (partial), of them 2 findings |
| C132 | The sampling frequency guessed from Vorbis headers | Guess.v: guess, head_loop, size_loop | one-step lemmas for the loops; the decoder is a parameter; general refutations with witnesses | 4 (proved), of them 2 findings |
| C133 | Which files mkclean touches | MkRun.v: mkclean, open_in, open_out, file_erase, at_exit | case analysis over the command line of C114/C115; file system as a function; the rest of the program is a parameter | 7 (proved), of them 2 findings |
| C134 | What is read from a file that was cut | Cut.v: render_all, read_all over Tree, TreeRead and Finder | induction over the encoding of the trees with the cut inside; the finder meets the end of the file; a small relation says what is left; assumes that a crash leaves a prefix of the bytes written | 5 (proved), of them 1 findings |
| C135 | The storage of string elements over any history | StrMem.v: step over set_value, read_data, update_size, render, copy_elt | invariant over histories: blocks belong to at most one element and hold a terminated text; the order of calls is judged from the calls and their results alone; refutations with witnesses | 11 (proved), of them 4 findings |
| C136 | Asking the program for memory back | Collect.v: pass, passes, hibernate | one-round lemma; termination by the distance of the level to the greatest int; small relation of rounds; collectors are any functions | 4 (proved), of them 0 findings |
| C137 | Nodes found by name, by class and by dotted expressions | Names.v: find_child, child_by_name, child_by_class, read_name, find_param | induction over trees with a principle for their lists of children; order of places; strong induction over the expression; general refutations | 12 (proved), of them 2 findings |
| C138 | The data of binary elements over histories of calls | BinMem.v: bstep over b_set_data, b_read, b_get, b_update, b_render, b_copy, resize64 | invariant over histories: what the replies tell is what the storage holds; general refutations | 10 (proved), of them 4 findings |
| C139 | Nodes made and let go | Make.v: lock, unlock, call_create, call_delete, make, let_go | induction over the chain of classes; case analysis of a creation; counting invariant over histories; general refutations | 9 (proved), of them 2 findings |
| C140 | The copying of nodes | NodeCopy.v: dup_replace, retype, copy_param, copy_table, copy_data, copy_exprs, node_copy | induction over tables and parents: what each property becomes; independent relation of replaced nodes; general refutations | 10 (proved), of them 2 findings |
| C141 | Tracks optimised by their common header | Optim.v: is_compressed, frames_of, look, look_all, common_header, over Block.v, Frame.v, Clean.v | induction over blocks with the reading of stored frames; composition with the round trip of stripped blocks; general refutations | 6 (proved), of them 2 findings |
| C142 | The handles of file streams and the listing of directories | Dirs.v: open_file, open_dir, enum_loop, enum_dir, delete, druns | invariant over histories: the open handles are a permutation of those held and those of others; induction over the names against an independent listing; general refutations | 6 (proved), of them 2 findings |
| C143 | Files read, written, moved in and cut, and skipping | FileIO.v: os_read, os_write, os_seek, os_truncate, f_read, f_write, f_seek, f_set_length, skip | invariant over histories against bytes, length and place told by the replies; induction over the reads of a skip for any stream, with files and buffers as instances; general refutations | 12 (proved), of them 4 findings |
| C144 | Modules that leave | Unreg.v: uninit, first_of, release, leave, unregister | induction over levels of derivation with a relation of work done that composes (switched off = called, once, children first); general refutation | 3 (proved), of them 1 findings |
| C145 | Rates in text | Rates.v: scale32, byte_rate_to_string | arithmetic for all rates on the proved texts of fractions and integers and the proved appending of texts | 2 (proved), of them 1 findings |
| C146 | Streams opened and closed | Opens.v: create, node_delete, stream_open, open_stream, sstep, sruns | invariant over histories: nodes and handles are a permutation of those of the streams held; the independent account counts what each costs | 4 (proved), of them 0 findings |
| C147 | Properties of classes are found | Lookup.v: bit_lookup, cmp_new, add_lookup, table, look, find_property | invariant of the table while it is built (sorted, and for each property exactly the group of entries the descriptions tell); the proved binary search of arrays; general refutations | 7 (proved), of them 2 findings |
| C148 | What classes tell about their properties | Told.v: scan, scan_asked, asked, external, param_meta, class_str, enum, find_in, find_param | induction on classes and descriptions: the loops give the first entry to say something; the proved comparison of texts | 7 (proved), of them 1 findings |
| C149 | Types and units by their names | TypeNames.v: param_name, param_format, is_named, find_unit, find_type, find_data_type, type_name, unit_name | induction on the loops with the proved comparison of texts; names differ pairwise; arithmetic of masks for all numbers | 6 (proved), of them 2 findings |

## Trusted base

* The kernel of Coq 8.16.1, including `vm_compute` (used for concrete examples, witnesses of findings and
  finite facts such as statements about all 256 bytes or about tables).
* `Print Assumptions` after each of the 748 theorems prints "Closed under the global context": no axiom is
  used, neither of the standard library nor of any other. (The libraries loaded by the standard library's
  tactics declare the parameters of the module type `Coq.ssr.ssrunder.Under_rel`; no theorem depends on
  them.) No theorem uses functional extensionality, classical logic or real numbers.
* The translation from C to Gallina, done by hand (tables by script), documented by the citations.

### Assumptions of the translation

* 64-bit target, `int` of 32 bits, two's complement, `filepos_t` = `int64_t`; the byte order and the
  signedness of `char` are parameters where they matter.
* Built with `NDEBUG` (assertions off) and `CONFIG_EBML_WRITING`; `CONFIG_BZLIB` off; `CONFIG_ZLIB` off except in Zlib.v, which models the parts it adds (and equals Block.v on tracks that are not zlib tracks);
  `CONFIG_LZO1X` off except in LzoBlock.v.
* Memory allocation succeeds. Freshly allocated memory that the code reads before writing it counts as a
  bad outcome or is excluded by hypothesis.
* Calls are sequential: the library has no threads or locks of its own in the modelled code. A stream is a
  byte list with a position; reads of files return what is there up to the end (memory streams and the
  buffered stream are modelled function by function in Stream.v).
* Callbacks (`EBML_MasterCheckContext`, sort comparisons) are arbitrary functions.
* Float arithmetic is not modelled: TrackTimestampScale is 1.0 (BlockTime.v), float elements are bit
  patterns, the floating-point directives of the printing and scanning functions are left out.

### Not modelled

* corec: node.c (modules, singletons, names and strings of properties) except through the element kinds it defines, Notify.v, NodeData.v, Classes.v, Props.v and Life.v; the parser of parser2.c (1-240), the
  serialisation of nodes (1065-1180), and DataToString for pins, nodes, fractions, colours, codes and GUIDs; strtab.c; memory heaps; the
  platform layers (file_*.c, date_win32.c, charconvert_linux/osx/win32.c).
* libebml2: the virtual-method glue (`EBML_ElementClassType`, node registration).
* libmatroska2: the zlib library itself (Zlib.v takes it as a parameter, with the promises of ZlibSpec.v as hypotheses of the theorems), bzlib (bzip2/), tremor/, MatroskaParser.c (CMakeLists.txt 109-114 builds it under `if (0)`, and it calls functions that no longer exist); the legacy `SAFE_` helpers.
* In mkvalidator: reading the file (the elements found are the input), texts and progress, the details of valid files; its options other than --live and --divx.
* The programs mkvtree, ebmltree and the tests (read, not modelled: mkvtree's OutputTree passes a NULL context whose profile OutputElement then reads, so it fails on every file; ebmltree uses EndPosition and Profile of a context it did not fill in); of mkparts its command line and messages other than that of line 296; of mkclean all but the remux (mkclean.c 2396-2705, without --alt-3d), the pieces in Clean.v, the cleaning of elements in Reduce.v, that of tracks in TrackClean.v (without --alt-3d), marks, lacing flags and compression in Encode.v, the command line in MkArgs.v, heads and names in MkHead.v, level 1 elements and Segment Info in MkInfo.v and the layout of files with Cues in Layout.v (without --live).


## Source ranges cited by the model

Extracted from the comments of the model files (line ranges of `/repo`; ranges of structures, tables and debug-only code are included).

* `array.c`: 12-13, 59-120, 165-168, 170-180, 182-189, 191-197, 199-207, 209-213, 227-236, 245-252, 254-260, 269-274, 276-344, 357-377, 379-391, 394-442, 446-487, 490-500, 504-519, 521-528, 530-580
* `bufstream.c`: 13-22, 24-34, 36-51, 53-91, 93-122
* `charconvert_utf8.c`: 11-185, 193-201, 207-216, 218-253, 255-284, 286-321, 323-345, 348-373, 375-397, 400-413, 415-427, 429-443, 465-479
* `date_libc.c`: 22-28
* `ebml.h`: 22-30, 33-48, 75-81
* `ebml_classes.h`: 19-29, 31-43
* `ebmlbinary.c`: 9-40, 43-50, 53-56, 58-61, 63-68, 70-73, 75-90, 107-116, 118-123
* `ebmlcrc.c`: 18-125, 128-134, 136-151, 153-165, 173-184, 186-192, 210-239, 241-258, 260-265
* `ebmldate.c`: 9-15, 17-23, 25-28, 57-63, 70-75
* `ebmlelement.c`: 11-14, 16-22, 24-31, 33-46, 48-53, 58-61, 73-75, 78-82, 93-108, 120-125, 132-135, 142-145, 147-150, 167-177, 184-205, 207-216, 218-226, 228-240, 242-255, 258-300, 302-326
* `ebmlmain.c`: 28-55, 103-147, 149-173, 175-184, 186-189, 191-204, 206-232, 234-299, 301-377, 379-404, 406-426, 429-453, 455-467, 470-665
* `ebmlmaster.c`: 14-40, 50-64, 72-76, 84-95, 97-104, 106-113, 115-136, 138-146, 148-152, 154-169, 171-182, 184-196, 198-210, 212-248, 250-258, 260-269, 271-421, 423-438, 446-554, 563-569, 572-581, 586-590, 598-601, 619-667
* `ebmlnumber.c`: 9-46, 48-88, 91-193, 195-203, 205-252, 254-262, 264-309, 314-336, 338-353, 413-418, 420-427, 430-435
* `ebmlstring.c`: 22-34, 36-50, 52-94, 97-115, 154-168, 170-173, 175-187, 189-210
* `ebmlvoid.c`: 9-12, 21-36, 44-50, 65-72, 74-114
* `file_libc.c`: 53-91, 94-177, 181-229, 231-241, 262-277
* `helper.h`: 11-13, 36-38, 47-52, 54-57
* `lzokay.c`: 22-270
* `lzokay.h`: 12-19
* `matroska.h`: 22-28, 47-54
* `matroska_classes.h`: 22-44
* `matroska_sem.c`: 531-1248
* `matroska_sem.h`: 327-328, 341-342, 412-415, 564-565
* `matroskablock.c`: 15-45, 48-354
* `matroskamain.c`: 24-52, 67-71, 94-142, 144-226, 258-412, 433-516, 518-556, 578-592, 594-735, 740-785, 787-810, 812-833, 835-925, 928-963, 966-973, 975-1012, 1014-1395, 1407-1553, 1561-1591, 1593-1604, 1607-1641, 1643-1723, 1725-1943, 1978-2121, 2123-2140, 2142-2212, 2214-2230, 2232-2241, 2243-2253, 2255-2449, 2452-2522
* `memstream.c`: 22-53, 55-80
* `mkclean.c`: 114-120, 161-169, 171-194, 196-243, 245-279, 304-397, 411-449, 451-527, 548-550, 557-655, 657-689, 691-697, 699-749, 751-833, 835-844, 857-880, 882-892, 894-972, 974-1400, 1402-1484, 1517-1533, 1556-1651, 1653-1733, 1748-1766, 1789-1859, 1861-1907, 1909-1914, 1942-1953, 1955-2006, 2033-2093, 2095-3187, 3201-3239
* `mkparts.c`: 117-335
* `mkvalidator.c`: 22-1438
* `node.c`: 16-62, 64-310, 374-401, 403-423, 425-433, 435-630, 632-722, 724-766, 780-833, 937-959, 980-1233, 1236-1291, 1293-1388, 1396-1440, 1456-1506, 1553-1597, 1614-1618, 1648-1710, 1712-1868, 1870-1874, 1876-1895, 1897-1901, 1903-1907, 1909-1916, 1963-2008, 2010-2034, 2041-2124, 2126-2180, 2248-2262, 2336-2390, 2545-2561, 2724-2801, 2848-2908
* `node_internal.h`: 11-50, 67-72
* `nodebase.h`: 19-61, 82-101, 128-155, 585-589
* `nodetree.c`: 11-151
* `parser.h`: 59-71
* `parser2.c`: 47-78, 80-89, 107-211, 246-256, 271-292, 316-1028, 1051-1063
* `portab.h`: 173-177, 249-262, 264-276
* `str.c`: 10-15, 17-23, 25-41, 43-54, 56-81, 83-92, 94-116, 118-128, 130-148, 150-160, 186-648, 650-803, 805-814, 816-817, 820-829, 831-837, 847-866, 881-885, 892-893
* `str_linux.c`: 12-15, 22-30
* `streams.c`: 12-25, 199-226, 228-258
* `streams.h`: 63-71
* `strtypes.c`: 15-34, 36-41, 43-90, 92-104, 106-112, 114-117, 125-130, 132-160, 162-178
* `tools.c`: 11-27, 29-40, 42-75, 77-146, 148-183, 185-229, 231-280, 282-300, 302-349, 351-371

## Findings (statements one would expect, false of the model)

Each is a theorem `..._refuted` with a concrete witness, or stated for all inputs of a class.

* `C21_fast_sort_stable_refuted`: Finding: the word-sized sort is not stable.
* `C105_art_first_refuted`: Finding: ordinary files are not sorted behind all cover art: a small cover stays behind them.
* `C105_land_refuted`: Finding: a landscape cover counts as equal to any ordinary file, so that files on both sides of it are not even sorted by name.
* `C105_overrun_refuted`
* `C138_unknown_refuted`: Reading into an element whose size is not known, one just made or one found with that mark, writes outside of its storage as soon as there is a byte to read.
* `C138_copy_refuted`: A copy whose data found no memory has the mark of a value and the size of the original, and is written as a head that announces this size with nothing behind it.
* `C138_measured_refuted`: An element that is measured before its data is read loses its size: what is read then is nothing, and reported as well read.
* `C138_failed_refuted`: After a reading that failed, what was in fresh memory is handed out as data.
* `C25_empty_frame_refuted`: A block of four bytes (an empty frame) at the end of a file is a valid block that is not read: the reader wants five bytes.
* `C26_long_frame_refuted`: A valid Xiph-laced block read by the library and rendered again writes outside the buffer of the lace: it has four bytes per frame, and a size takes one byte per 255 bytes.
* `C27_long_code_refuted`: The format lets a size take up to eight bytes; the reader has four bytes per frame but one.
* `C28_256_frames_refuted`: A block of 256 frames of the same size, which the library writes, is never read to the end: the loop counter is a byte.
* `C51_shortest_refuted`: The choice is not the shortest: the estimate for EBML lacing does not use the differences written.
* `C30_oversize_refuted`: Sizes larger than the data, and negative differences, give frames outside the data.
* `C30_negative_size_refuted`
* `C30_zero_count_refuted`: EBML lacing with a count byte of 0 writes after the table.
* `C30_xiph_end_refuted`: A Xiph size cut by the end of the file after a byte 255 is read for ever.
* `C31_scope_refuted`: With a scope that does not cover blocks (only the codec private data), the frames are written whole but read with the header put in front.
* `C33_skip_stripped_refuted`: In a laced block with a stripped header it does not: the sizes count the header, which is not in the file.
* `C108_cycle_refuted`: Two classes that name each other as parent: asking for their kind never ends.
* `C109_waiting_refuted`: An abstract class whose parent is not there is listed all the same.
* `C84_compressed_refuted`: The header stays right only for the frames that were looked at: a block already compressed is passed over, and its frames need not begin with the header.
* `C85_no_type_refuted`: A track before them without a TrackType stops the search by a null pointer.
* `C86_big_number_refuted`: A track number of 32768 or more never gets one.
* `C86_later_keyframe_refuted`: Keyframes 800 ms apart from all the cue points may have none: only the first keyframe of a cluster counts.
* `C87_first_refuted`: Going on from the last cluster, a block that an earlier cluster has as well is found in a later one.
* `C88_elements_refuted`: Otherwise the Timestamp elements of two clusters can be the same.
* `C89_zero_refuted`: A source with a scale of 0 is never finished with.
* `C54_two_timestamps_refuted`
* `C54_mixed_refuted`: A SimpleBlock that follows a BlockGroup of a later time stays there: the two forms are not sorted together.
* `C54_close_refuted`: Blocks less than 100 us apart are not sorted.
* `C54_far_refuted`: Blocks far apart, or with an unknown time, are put in the wrong order.
* `C01_large_size_refuted`: Finding: from 2^35 on, without a forced length, another size is read back; at 2^35 - 1 the "unknown" marker is written.
* `C01_limit_is_unknown_refuted`
* `C05_forced_size_refuted`
* `C05_large_negative_refuted`
* `C08_sint_signed_char_refuted`
* `C08_sint_empty_refuted`
* `C09_crc_big_endian_refuted`
* `C12_gap_of_two_refuted`: Finding: the filler never covers the gap ([k] bytes short in C12_void_replace); for a gap of 2 bytes it is a Void of unknown size.
* `C18_recursive_schema_refuted`: A master that must contain itself is never finished.
* `C18_repeatable_refuted`: Repeatable mandatory children are not added; without SetDefault the masters added are empty.
* `C18_without_defaults_refuted`
* `C49_forced_size_refuted`: A forced default size is not copied, nor the unknown size of a master; the copy of a string never set has a buffer of no bytes, read past its end when the value is asked for.
* `C49_unknown_size_refuted`
* `C49_unset_string_refuted`
* `C50_deletion_refuted`: Deleting what is reported leaves violations unreported: after a deletion the first child is passed over.
* `C34_lookup_void_refuted`: Findings: other elements among the cue points. A Void counts as a cue point at the end of time: it hides the cue points that follow it, and is itself returned when it comes first.
* `C34_sort_void_refuted`: A Void between cue points keeps them from being sorted.
* `C34_sort_two_voids_refuted`: Sorting Cues with two Void elements compares them, which calls a NULL function: what the sort does depends on the answer of that call.
* `C35_seek_id_refuted`: Finding: the ID of an entry whose SeekID is cut short is read beyond its data.
* `C35_cue_unknown_time_refuted`: Finding: a block whose time is not known (its track is not linked) is indexed at a time of its own.
* `C53_high_track_refuted`: Finding: blocks of tracks from 32768 on are never found.
* `C134_master_told_refuted`
* `C142_dangling_refuted`: A name that leads nowhere (a link without a target): the statistics that are used were never set.
* `C142_far_refuted`
* `C45_short_refuted`: The headers are read without regard to the size of the frame: a frame shorter than its header at the end of the data is read past it.
* `C44_late_refuted`: Dates beyond: the file can hold 292 years each way, but a date after 19 January 2069 reads as one up to 136 years before.
* `C44_reference_refuted`: The reference date itself cannot be set: the number for it means "no date".
* `C44_2038_refuted`: Every date after 19 January 2038 overflows on the way to the calendar, although dates go up to 2069.
* `C106_lacing_refuted`: A track number is a 64-bit element and is stored in an int: one track numbered 2^31 + 5, in a file without any block, makes mkclean read outside of its array.
* `C107_keep_refuted`: When --compalgo is not given and the private data would shrink, the kept zlib compression is taken away: the algorithm of the private data is the one asked for, which is none.
* `C107_plain_refuted`: With --optimize the same happens to a codec that stores plain data (PCM with private data), and a compression of the private data alone (scope 2) goes even without any option.
* `C107_private_only_refuted`
* `C107_video_refuted`: --optimize_nv: the compression of a video track is deleted first, so the answer is that the frames need not be read again, although they are still compressed in the file.
* `C68_empty_refuted`: But an empty buffer is written with its terminator even where there is no room at all.
* `C69_least_refuted`: But -2^63 is an intptr_t and cannot be read: the magnitude overflows first.
* `C70_denominator_refuted`: But a fraction that does not fit may be left with no denominator.
* `C70_negative_refuted`: But the decimals of a negative number are added to it: -1.5 is read as -0.5, and -0.5 as 0.5.
* `C70_double_refuted`: But every negative double, and one below 2^-10 or from 2^53, makes a shift that C does not define.
* `C71_half_up_refuted`: But not in general: 2/3 is shown as 0.66.
* `C71_negative_refuted`: But a negative fraction is shown with its sign among the decimals: -1/2 as 0.-5.
* `C143_stuck_refuted`: A stream that tells success without giving a byte is skipped for ever.
* `C143_back_refuted`: A skip backwards tells success and does nothing.
* `C143_end_refuted`: The end of the file is told although bytes follow, when the system gives less than was asked for.
* `C143_count_refuted`: A reading of 2^63 bytes and more does not tell how much it gave: the caller's variable is as it was.
* `C104_cut_refuted`: Finding: a stream that ends within the size gives an element of size 0 all the same.
* `C104_overrun_refuted`: Finding: five bytes of which the first is below 16: the fifth is written behind the array of four.
* `C104_unknown_refuted`: Finding: a master of unknown size is given a size, and the end that goes with it.
* `C16_start_after_context_refuted`: When the search starts after the end of the outermost context these guarantees are lost: the stream is read past the end, then placed before the starting position.
* `C17_resynchronises_near_end_refuted`: Without that room an element can be missed: a four-byte ID is assembled from junk and the end of the context, and the search stops there.
* `C17_element_inside_context_refuted`: The element may end after its context: the check leaves out the header.
* `C17_stale_id_length_refuted`: At the very end of a context the length of an earlier ID is reused: the element is reported one byte too early, at bytes that are no ID at all.
* `C132_comments_refuted`: With comments of 255 bytes or more the first header is looked for too early, the decoder refuses it, and the frequency of the track is the number of an error: -3.
* `C132_beyond_refuted`
* `C90_unlinked_refuted`: A cue point whose block was not found is followed as if it had one: the null pointer.
* `C91_seekhead_size_refuted`: The position supposed for the Cues leaves out the room kept after the SeekHead. When that room takes it over a power of 256, the SeekHead changes size after the cue points were settled: mkclean ends with success and every cue point is off.
* `C91_segment_head_refuted`: The check that the segment still fits its head is always passed (the source says so): a segment that needs a longer head gets it, the head then covers the first byte of what followed and the cue points are off.
* `C124_delete_referred_refuted`: The rule for a child deleted where it is asks that nothing else refers to it. Without that rule the claim is false: deleting the block of a cue point leaves it in its cluster without a count; when the cluster goes the block is freed, the cue point refers to memory that is free, and deleting the cue point reads it.
* `C125_cycle_refuted`: Without the last condition the claim is false: two nodes that refer to each other stay for ever.
* `C147_bit_refuted`: But the bit of a derived class that describes nothing else of the kind is not used; that it has another property changes this.
* `C147_readonly_refuted`: And read-only data of a derived class do not hide data that can be set: what is set is not what is got.
* `C36_overread_refuted`: Finding: an input that stops inside a length is scanned beyond its end.
* `C55_dense_refuted`
* `C55_retry_refuted`: An unlaced block that could not be read counts as read: asked again, it succeeds.
* `C139_memory_refuted`: Without memory for the node, its modules stay in use for ever: a module is never released after.
* `C139_single_refuted`: When a singleton cannot be noted, its memory is lost.
* `C114_scale_refuted`: The full claim "--timecodescale <v> forces the scale to v" fails: StringToInt64 wants "0x" and eight digits twice. A number in decimal, as the usage shows it, is no different from no option at all.
* `C114_last_refuted`: An option that is not known, or whose value is missing, is read as a file if it is the last one.
* `C114_alt_refuted`: --alt-3d with a negative number writes outside the array.
* `C114_same_file_refuted`: Nothing keeps the file read and the file written apart: it is opened for reading, then made empty for writing.
* `C115_root_refuted`: A file in the root is written into the working directory; a '\' in a name counts as a separator.
* `C115_long_refuted`
* `C116_version_refuted`: Findings. A file that asks for version 3 to 5, which --doctype can write, is refused.
* `C116_huge_refuted`: A file with no DocType, even no head at all, is taken and has no profile; a required version of 2^63 and more is negative and taken, and its low 32 bits can choose version 3.
* `C117_again_refuted`: Findings: files written with --doctype 3, 6 and 7 (Matroska 3, 4 and 5) are refused by mkclean itself; --doctype 1 of a file that asks for version 2 leaves the version 2, so that the result counts as Matroska 2.
* `C118_again_refuted`: Findings: a second pass of mkclean does not replace its own name, since MuxingApp comes first in what it looks at; a file with one name, "mkclean 0.9.0", makes it read behind the end of the text; a name that is its own is not removed with its marks, " from " is left twice.
* `C119_tags_refuted`: Findings. Matroska allows several Tags: all but the last are lost. Clusters that cannot be read are left out, and this is no error.
* `C120_zero_refuted`: Finding: with a TimestampScale of 0 in the source mkclean never ends, and with a negative one (2^63 and more) its shift is undefined.
* `C121_null_refuted`: An EBML header with no segment after it: NULL is read through. So does anything behind the last segment that is taken for an element.
* `C121_unknown_size_refuted`
* `C122_beyond_refuted`: Beyond its end: it never ends.
* `C123_done_refuted`: Two or more: it never comes to its end.
* `C123_progress_refuted`: With progress shown: no file at all is written.
* `C133_protected_refuted`: A file that cannot be opened for writing is erased when the program gives up: write protection does not keep it.
* `C133_same_refuted`: A source that is named as the output too is lost, whatever its protection: it is emptied before it is read, an empty source has no EBML head (1740-1744), and the program that gives up erases it.
* `C137_long_refuted`
* `C137_twins_refuted`: A node is not looked for behind the first of two children with a name.
* `C20_cycle_possible_refuted`: The library itself does not check this: a cycle can be made.
* `C20_foreign_sibling_refuted`: With a sibling from another parent (only an assertion guards this) a node ends up in two lists.
* `C19_default_sort_refuted`
* `C140_order_refuted`: One copy alone has its expressions in the opposite order: of two values given to one name the other is found first.
* `C140_size_refuted`: A property declared with more bytes than the buffer holds makes the copying write behind it.
* `C101_wrap_refuted`: Not so for identifiers of more than 24 bits where uint_fast32_t has 32: the upper byte is lost, and what is set for one is read for another.
* `C102_set_refuted`: Setting a reference over another one takes none on the new node and gives none back of the old one: the old one is never released, the new one is released without having been taken.
* `C103_wide_refuted`: Fields of 64 bits (int_fast32_t there): the products wrap, and different fractions compare equal.
* `C99_order_refuted`: A listener that withdraws itself and then the next one: the freed registration is followed.
* `C99_leak_refuted`: A listener that withdraws itself twice: its memory is never given back, though nothing is registered any more.
* `C99_delete_refuted`: A listener that deletes the node, when other data was set after the first registration: the place of the list is looked up in the freed entry of that data.
* `C99_after_delete_refuted`: After a listener has deleted the node the others are still called: one that withdraws itself then goes through the VMT of the deleted node.
* `C99_deleting_refuted`: While the node is being deleted, a listener that sets or removes other data: the wrong entry of the data list is freed, or the place of the list looked up in a freed entry.
* `C99_clear_refuted`: Removing the whole list from within a callback: it removes nothing, the listeners are called by the next event too; and a listener that then withdraws itself is used after it was freed.
* `C100_one_refuted`: … but not the other way round: 1 with nobody registered, after a listener withdrew itself.
* `C141_same_frames_refuted`: A track with one frame, or with frames that are all the same, is left with empty frames; the last block of a file that is written like that is not read any more.
* `C141_empty_refuted`: A block whose frames have no bytes makes the search look at a frame that was never given.
* `C43_split_null_refuted`: An http URL whose file has MAXPATH-1 or more characters before the '#' makes it write through NULL.
* `C43_rel_slash_refuted`: With a '/' at the end of the directory, the way back gives another path.
* `C43_upper_smb_refuted`: There it succeeds for ever and the path never gets shorter.
* `C43_reduce_diverges_refuted`: A ".." with nothing to take away makes it run for ever.
* `C43_reduce_dots_refuted`: A name that merely begins with ".." is taken for "..": "/b/..foo" becomes "foo".
* `C46_wide_field_refuted`: Findings. A right-aligned string whose field is wider than the buffer is written past its end (%20s into 4 characters); such a character fills the buffer and no room is left for the final zero (%20c into 10).
* `C46_fourcc_refuted`: %r adds the length of a code to the room left instead of taking it: "%r%r" overflows 8 characters.
* `C46_numbers_refuted`: A width over 8 is lost for hexadecimal numbers, and 0 then prints as nothing; a negative one is not its two's complement; a decimal number from 10^12 is not in decimal digits; %-5d is aligned right; a signed number is wrong as %ud.
* `C46_end_refuted`: A format ending inside a directive is read past its end.
* `C59_top_bit_refuted`: Findings: words with the top bit set print with wrong digits, different numbers get the same text, and other 64-bit numbers print as two decimal numbers side by side (2^40 gives 2560).
* `C60_int64_refuted`: Finding: a low word with its top bit set is taken as negative, so the number read is 2^32 too small.
* `C60_scan_refuted`: Findings: after a long directive every decimal value is stored as 64 bits, also for %d; '-' alone is the number 0; a mask ending in '%' is read past its end; a number of 64 bits and more overflows.
* `C110_mixed_refuted`: Without handlers kept apart the answer depends on declarations of other IDs: a function is called, or taken for a handler.
* `C110_bit_refuted`: A bit declared again, alone, in a derived class is not used, unless the class declares anything else.
* `C111_fraction_refuted`: A fraction of the same value but written another way is not stored, when it is compared first.
* `C111_readonly_refuted`: A class cannot make data of its parent read-only: setting goes to the declaration of the parent.
* `C145_nearest_refuted`: Below a million bits they are not rounded to the nearest: 999992 bits are shown as 999 kbit/s, while 1000000 bits are 1.00 Mbit/s.
* `C126_cue_refuted`: Without the condition on the lost elements the claim is false: a simple block that a cue point refers to and that cannot be read is said to be dropped and stays; read again (mkclean reads each cluster several times, 364, 395, 661) it is freed while the cue point refers to it.
* `C92_freed_refuted`: An element given to the cleaning may be deleted: mkclean goes on using it (mkclean.c 2155-2165 for Attachments, the same for Chapters, Tags and Cues). Here a section with nothing but padding.
* `C92_profile_refuted`: An element that the profile does not allow may stay, as the first child: here an EncryptedBlock, not allowed in any profile.
* `C82_unordered_keyframes_refuted`: It does not always end: one keyframe out of order among those of the main track is enough.
* `C82_single_block_refuted`: Nor does it for a main track with a single block: a pointer past the end of the array is followed.
* `C83_part_without_time_refuted`
* `C83_held_back_refuted`
* `C40_unterminated_refuted`: But a buffer that is not terminated is read beyond its end.
* `C41_extension_refuted`: Characters count as signed: a longer text can come before its own beginning.
* `C42_fill_refuted`: The code of four '_' becomes an empty text, and text ending in '_' loses it.
* `C135_given_back_refuted`: Without that, no: the storage of a value that is read again is never given back.
* `C135_copy_refuted`: The copy of an element without value cannot be asked for its text, although the element can.
* `C135_default_refuted`: An element with a default whose data was skipped cannot be written with its default.
* `C135_memory_refuted`: An element whose new text found no storage keeps the mark of a value, and cannot be written.
* `C37_seek_before_offset_refuted`: Finding: a seek before the virtual offset is accepted and leaves the position outside the block.
* `C37_null_count_refuted`: Finding: the written count is mandatory, although other streams and the buffering stream (see C38) pass NULL.
* `C38_interleaving_refuted`: Finding: one buffer serves both directions, so a write between two reads changes what is read.
* `C38_partial_flush_refuted`
* `C39_prefix_refuted`: But not of the beginning of the text: a character that does not fit is left out and the text goes on.
* `C39_overlong_refuted`: An overlong zero is accepted: it ends the text in the middle.
* `C57_cut_refuted`: With room for one unit, half of a pair would not fit: the code point is stored modulo 65536, as another character.
* `C129_never_finite_refuted`: The claim fails for every element of unknown size and every size, fitting or not: the function says that it has done it, the element has the new size and is still of unknown size, and the head that is written is the one from before, whose size reads as unknown.
* `C130_small_refuted`: Without the room for it nothing is written, not even the end of a text: what the buffer held before is what the caller prints.
* `C130_zero_refuted`: The ID 0 has no text, and its length is given as 4.
* `C131_smallest_refuted`: The smallest time cannot be negated.
* `C131_colour_refuted`: From 128 of red on the number printed is negative and the digits are not those of the colour: pure red is written as #060000, and another one has characters that are no digits.
* `C32_written_close_refuted`: It can be more than one unit away, although a timestamp that close can be written: the cluster keeps its exact timestamp and the file has the rounded one.
* `C32_set_again_refuted`: Once it was asked for, the timestamp of a block does not follow MATROSKA_BlockSetTimestamp.
* `C32_read_only_refuted`: A block linked to its track for reading only: asking for its timestamp dereferences NULL.
* `C32_cluster_set_far_refuted`: Blocks too far from the new timestamp keep their old 16 bits without an error: they are written at another time.
* `C32_link_empty_refuted`: Linking an empty cluster to the segment info it is written with gives it a Timestamp element.
* `C148_hidden_refuted`: C148: not so: a text written in what a class derives from is found when nothing nearer says one. With a context that has texts, it never is, where functions do not answer.
* `C93_intended_refuted`: A display of more than half the pixels is turned into a ratio, although it is recognised as intended.
* `C93_crop_refuted`: Cropping is given in pixels but limited by the display size: with a size in centimetres it is lost.
* `C93_void_crop_refuted`: Without a display size, cropping that leaves nothing stays.
* `C93_zero_refuted`: A display height of 0 stays when there is no display width.
* `C95_both_refuted`: Both eyes should stay marked: but with a pair of eyes in the same file they become mono.
* `C95_deleted_refuted`: A combined track may name a track that is deleted afterwards: here the left eye has no number.
* `C61_ask_changes_refuted`: Finding: it does add elements, and the frames of a track with an empty ContentEncoding, read as plain before, are refused after the question.
* `C61_two_encodings_refuted`: Finding: with two ContentEncodings one stays, and the compression with it.
* `C62_new_track_refuted`: Finding: the data of a new track count as compressed with zlib (the field is 0), so that asking for zlib declares plain data as compressed.
* `C62_removed_refuted`: Finding: taking the compression away from a track that was read leaves its codec private data compressed and no longer declares it.
* `C63_twice_refuted`: Finding: linking for writing after linking for reading counts the header twice.
* `C63_write_null_refuted`: Finding: linking for writing a block that was never linked for reading uses a NULL track.
* `C65_block_mark_refuted`: Marking a Block does not reach the file: a keyframe of a group with a ReferenceBlock is none once read back, and unmarking one of a group without it changes nothing.
* `C65_block_unmark_refuted`
* `C13_mixed_defaults_refuted`
* `C14_unknown_size_refuted`: With a child of unknown size the round trip fails: the element after it is lost. The two files hold the same elements, one number in a master followed by another number, the inner master with known and with unknown size.
* `C15_empty_refuted`: Not verified: a checksum over no bytes at all, read from a file (any stored value gives status 0, while a memory stream reports it); and checksums below the depth asked for.
* `C15_depth_zero_refuted`
* `C48_null_dereference_refuted`: A file that ends inside a master of unknown size whose parent's size is known makes the reader use a NULL element: ten bytes are enough (ebmlmaster.c 413-417).
* `C48_memory_checksum_refuted`: In a memory stream a checksum element that is not the first child makes the reader cover bytes after the end of the buffer.
* `C149_types_refuted`: C149: those of types are for the types there are, and for no other number: those of 42 to 63 are read outside the table.
* `C149_none_refuted`: C149: the type "none" is not told from a name that is not there.
* `C144_module_refuted`
* `C72_status_refuted`
* `C72_header_refuted`: Errors of the header do not count: here DocTypeReadVersion is above DocTypeVersion.
* `C74_second_refuted`: Findings. The position of an entry for a second seek head is not looked at; an entry for a cluster is accepted when there is none.
* `C74_cluster_refuted`
* `C75_zero_refuted`: Findings. A DisplayHeight of 0 makes the program divide by zero; outside WebM a plain half size, which has no sign of a ratio, gets the warning, and the same shape at half size does not.
* `C75_sign_refuted`
* `C76_audio_refuted`: Findings. An audio track without an Audio element is accepted, and so is a track without a CodecID but for a warning about its name (0x300 is never given).
* `C76_codec_refuted`
* `C77_endless_refuted`: Findings. With a track number of 65535 or more the check does not end (its counter has 16 bits).
* `C77_number_refuted`: The numbers of blocks have 16 bits with a sign: the blocks of track 40000 are of an unknown track.
* `C77_untracked_refuted`: Clusters with blocks but no Tracks make it use a null pointer.
* `C78_position_refuted`: Finding: the position of the cluster a cue point leads to is not looked at.
* `C79_void_refuted`: Finding: a later void replaces what was counted before.
* `C112_text_refuted`: Findings. Texts are written as they are: one with '<' or '&' is read as something else, or not at all.
* `C112_forged_refuted`
* `C112_long_refuted`: An attribute over the limit loses its closing quote, and the document cannot be read; a line break in an attribute is read as a blank.
* `C112_line_break_refuted`
* `C112_root_blank_refuted`: In the root a single blank between texts is lost once an element was written.
* `C112_blank_added_refuted`: Blanks are added inside texts: after an element within a text there is one more.
* `C112_deep_refuted`
* `C127_empty_refuted`: Finding: a frame without bytes is given no room to be compressed into, for ever.
* `C128_failed_refuted`: Finding: in a block without lacing they do. The first call says that the frame is damaged, every later one that all is well, with the compressed size of the frame.
* `C128_big_refuted`: Finding: a frame that compresses to more than 100 bytes above its own size is written from past the end of the buffer it was compressed into.
* `C128_fixed_refuted`: Finding: when the lacing is left to the library, frames of the same size get the lacing without sizes, although it is the compressed frames that are laced. A reader of such a lace takes them to have the same size: it never finds the frames.
