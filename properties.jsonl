{"id": "C01", "title": "Binary reads deliver consecutive most-significant-first slices", "statement": "For a tdcfio.BitReader over any byte stream and any sequence of ReadUint/ReadInt/ReadBool/ReadBytes/ReadBinary calls that all succeed, the k-th call consumes exactly the bits that follow those consumed by the first k-1 calls (no gap, no overlap, no reordering), and its value is the most-significant-bit-first reading of its own slice (modulo 2^64 for widths above 64).", "quantifier": "all byte streams, all finite call sequences with non-negative widths (ReadInt widths >= 1)", "why_tests_cant": "The claim is about every history of differently aligned, differently typed reads; a test fixes one alignment history.", "anchors": ["tdcfio/bitreader.go: BitReader.ReadUint, ReadInt, ReadBool, ReadBytes, ReadBinary"]}
{"id": "C02", "title": "Pos is the exact number of bits delivered", "statement": "After any sequence of successful reads, Pos() has grown by exactly the number of bits taken from the stream; a failed read still advances Pos() by its full width although fewer bits were taken (a ReadInt that finds the stream exhausted advances it by 1), so Pos() is never smaller than the true position, whatever calls failed before.", "quantifier": "all streams and all call sequences with non-negative widths (ReadInt widths >= 1)", "why_tests_cant": "Position drift only shows after particular histories; tests check Pos after one or two calls.", "anchors": ["tdcfio/bitreader.go: BitReader.Pos, ReadUint, ReadInt, ReadBool, ReadBytes, ReadBinary"]}
{"id": "C03", "title": "What the bit writer writes the bit reader reads back", "statement": "For any sequence of typed values, each written with a width it fits in, reading the written stream with the same sequence of types and widths returns exactly the same values, regardless of how the fields straddle byte boundaries, and leaves any trailing bits unread.", "quantifier": "all finite sequences of typed values (uint, int, bool, bytes, binary) that fit their widths", "why_tests_cant": "Round-trip over every sequence of widths and alignments is an infinite family.", "anchors": ["tdcfio/bitwriter.go: bitWriter.WriteUint, WriteInt, WriteBool, WriteBytes, WriteBinary", "tdcfio/bitreader.go: BitReader.Read*"]}
{"id": "C04", "title": "Writer output size and content", "statement": "After writing fields of widths n1..nk through tdcfio.BitWriter, the underlying io.Writer has received exactly floor((n1+...+nk)/8) bytes: their bits are the low ni bits of each value in order. Bits of an incomplete last byte are never emitted (there is no flush). WriteBytes(v,n) always emits n bytes: v truncated or zero padded.", "quantifier": "all write sequences and values", "why_tests_cant": "Depends on the running total modulo 8 over an arbitrary history.", "anchors": ["tdcfio/bitwriter.go: BitWriter, WriteUint, WriteBytes, WriteBinary"]}
{"id": "C05", "title": "Signed integers are sign-and-magnitude", "statement": "ReadInt(n) returns (+/-)m where the first bit is the sign and m is the value of the remaining n-1 bits; WriteInt(v,n) followed by ReadInt(n) returns v exactly when |v| < 2^(n-1); a non-negative v >= 2^(n-1) that fits n bits comes back as 2^(n-1)-v, i.e. non-positive.", "quantifier": "all n in 1..64 and all v", "why_tests_cant": "Boundary holds for each width; a test picks a few widths.", "anchors": ["tdcfio/bitreader.go: BitReader.ReadInt", "tdcfio/bitwriter.go: bitWriter.WriteInt"]}
{"id": "C06", "title": "Peeking never disturbs the stream and agrees with reading", "statement": "On a PeekableBitReader at a byte boundary, PeekUint(skip,n)/PeekBytes(skip,n) return exactly what reading after skipping `skip` bytes would return; they change neither Pos() nor any later read. Off a byte boundary, or when skip+n bytes exceed the 4096-byte buffer, they report an error instead.", "quantifier": "all streams, positions, skips and sizes", "why_tests_cant": "Peek/read agreement has to hold for every prior history and size, including the buffer limit.", "anchors": ["tdcfio/bitreader.go: PeekableBitReader.PeekUint, PeekBytes, peek"]}
{"id": "C07", "title": "Truncated input is reported by value reads", "statement": "ReadUint, ReadInt, ReadBool and ReadBytes succeed if and only if the stream still holds enough bits for the requested width; otherwise they return the stream's error. They never fabricate a value.", "quantifier": "all streams, positions and non-negative widths", "why_tests_cant": "Every truncation point of every stream.", "anchors": ["tdcfio/bitreader.go: BitReader.ReadUint, ReadInt, ReadBool, ReadBytes"]}
{"id": "C08", "title": "Truncated input is reported by ReadBinary", "statement": "ReadBinary(n) returns a non-nil error whenever fewer than n bits remain.", "quantifier": "all streams, positions and widths", "why_tests_cant": "Every truncation point of every stream.", "anchors": ["tdcfio/bitreader.go: BitReader.ReadBinary"]}
{"id": "C09", "title": "Binary values and bit strings correspond one to one", "statement": "For any string of '0'/'1' characters, NewBinaryFromString succeeds, String() gives the same string back, Nbits() is its length and Bit(i) is its i-th character; strings with any other character are rejected; Bit(i) is false beyond the end; and ReadBinary(n) of n stream bits has exactly those bits as its String().", "quantifier": "all strings", "why_tests_cant": "All lengths including those not a multiple of eight, all contents.", "anchors": ["tdcfio/binary.go: NewBinaryFromString, String, Bit, Nbits", "tdcfio/bitreader.go: ReadBinary"]}
{"id": "C10", "title": "NewBinaryFromUint returns the bits of its argument", "statement": "NewBinaryFromUint(v,n) returns, for every v and n>=0, a Binary holding the low n bits of v.", "quantifier": "all v and n", "why_tests_cant": "Termination for every argument cannot be observed by a test.", "anchors": ["tdcfio/binary.go: NewBinaryFromUint"]}
{"id": "C11", "title": "JSON input is consumed as the flat sequence of its scalar tokens", "statement": "For a FlatJsonReader over any JSON document, the k-th successful read returns the k-th scalar token of the document in order, whatever the nesting of arrays and objects; a read of the wrong type reports an error, consumes exactly one token, and the end of the document is reported as an error.", "quantifier": "all token streams and all call sequences", "why_tests_cant": "Any nesting and any call sequence.", "anchors": ["tdcfio/flatjsonreader.go: FlatJsonReader.Read*, token"]}
{"id": "C12", "title": "JSON peeking does not change what reads return", "statement": "For a PeekableFlatJsonReader, inserting any number of PeekUint/PeekBytes calls anywhere in a sequence of reads leaves the results of the reads unchanged.", "quantifier": "all token streams and all interleavings of peeks and reads", "why_tests_cant": "Depends on the cache contents left by an arbitrary history.", "anchors": ["tdcfio/flatjsonreader.go: PeekableFlatJsonReader.peek, shift, Read*"]}
{"id": "C13", "title": "JSON peek returns the token at the requested distance", "statement": "PeekUint(skip)/PeekBytes(skip) on a PeekableFlatJsonReader return the scalar token `skip` positions ahead of the next read.", "quantifier": "all token streams, prior histories and skips", "why_tests_cant": "Only wrong after particular peek histories.", "anchors": ["tdcfio/flatjsonreader.go: PeekableFlatJsonReader.peek"]}
{"id": "C14", "title": "ReadFloat32 on the peekable JSON reader returns", "statement": "ReadFloat32 on a PeekableFlatJsonReader returns the next token's number (or an error) for every stream and cache state.", "quantifier": "all token streams and cache states", "why_tests_cant": "Non-termination is not observable by a passing test.", "anchors": ["tdcfio/flatjsonreader.go: PeekableFlatJsonReader.ReadFloat32"]}
{"id": "C15", "title": "Descriptor numbers decompose uniquely into F, X, Y", "statement": "For any F in 0..3, X in 0..63 and Y in 0..255 the identifier F*100000+X*1000+Y read from 2+6+8 bits yields back exactly F, X and Y, prints as the six digits FXXYYY, and distinct descriptors have distinct identifiers and texts.", "quantifier": "all F, X, Y in range", "why_tests_cant": "Finite but large domain; also uniqueness over all pairs.", "anchors": ["table/descriptor.go: ID.F, ID.X, ID.Y, ID.String", "deserialize/factory.go: NewTemplateField"]}
{"id": "C16", "title": "Table lookup: first group wins, kind follows F", "statement": "Looking up an identifier in a chain of table groups returns the descriptor of the first group that knows it and fails only if none does; a found descriptor carries the requested identifier; element and sequence descriptors come from Table B and D, replication and operator descriptors are always found, and identifiers with F above 3 never are.", "quantifier": "all chains of groups, all table contents, all identifiers", "why_tests_cant": "Any number of groups and any contents.", "anchors": ["table/group.go: ChainingTableGroup.Lookup, SingleTableGroup.Lookup", "table/table.go: B.Lookup, D.Lookup"]}
{"id": "C17", "title": "Concurrent table requests share one loaded copy", "statement": "For any number of goroutines requesting tables concurrently in any interleaving, each path is loaded successfully at most once; every successful request for a path returns the same table object, built from the file contents at the time of its load; failed loads are not cached; no two goroutines hold the write lock together.", "quantifier": "all interleavings of all finite sets of requests, all file-system behaviours", "why_tests_cant": "Interleavings cannot be enumerated by tests.", "anchors": ["table/manager.go: tableManager.getTableB, getTableD"]}
{"id": "C18", "title": "Different tables never collide in the cache", "statement": "Requests that differ in master table number, centre, sub-centre, version or table kind use different cache keys; equal requests use the same key.", "quantifier": "all integer quadruples and both table kinds, any base path", "why_tests_cant": "Injectivity over all integers.", "anchors": ["table/manager.go: composeTablePath"]}
{"id": "C19", "title": "Local and WMO tables are combined in the documented order", "statement": "AddLocalAndWmoTableGroups with a non-zero local version puts the local group before the WMO group so that local entries shadow WMO entries; when the sub-centre's tables do not exist it falls back to sub-centre 0; with local version 0 only the WMO group is used; and if no local table group exists only the WMO group is added.", "quantifier": "all file-system contents and all numbers", "why_tests_cant": "Every combination of existing files.", "anchors": ["table/group.go: AddLocalAndWmoTableGroups, AddSingleTableGroup"]}
{"id": "C20", "title": "Table B records are loaded faithfully", "statement": "A well-formed Table B record is loaded into an entry with the same name, unit, scale, reference value and width; character, flag-table and code-table elements are recognised as such; a record with a field of the wrong type is rejected with an error.", "quantifier": "all records", "why_tests_cant": "All field combinations and unit spellings.", "anchors": ["table/table.go: recordToBentry, unitOf, LoadTableB"]}
{"id": "C21", "title": "Template expansion keeps every descriptor once and in order", "statement": "Expanding a template and flattening the result (each sequence to its own descriptor, each replication to its descriptor, factor and members) gives back exactly the unexpanded list; each sequence node's members are the expansion of its Table D entry.", "quantifier": "all templates and all acyclic tables on which expansion succeeds", "why_tests_cant": "Arbitrary nesting depth and length.", "anchors": ["table/template.go: expand"]}
{"id": "C22", "title": "Template walk events are well nested and count replications", "statement": "Walk emits a balanced stream of begin/end events; with a replication-count channel, a fixed replication FXXYYY emits exactly Y blocks, a delayed one exactly the number received for it, each a complete walk of its members; without a channel every block is emitted once; Dump never indexes below its indentation stack.", "quantifier": "all expanded templates and all supplies of counts", "why_tests_cant": "Unbounded nesting and counts.", "anchors": ["table/template.go: Walk, walkReplication, walkSequence, Dump"]}
{"id": "C23", "title": "Parsing terminates when Table D is acyclic", "statement": "If the sequence definitions contain no cycle, Parse returns (a tree, an error or a panic) on every template, and the answer does not depend on how much recursion it is allowed; on a self-referential sequence it never returns.", "quantifier": "all templates, all tables", "why_tests_cant": "Termination for all inputs.", "anchors": ["deserialize/parser/parser.go: Parse, parseSequenceNode", "deserialize/parser/state.go: processThrough"]}
{"id": "C24", "title": "The parsed tree contains the template's descriptors exactly once, in order", "statement": "Whenever Parse succeeds, reading the tree's descriptors in document order (operator, bitmap, attributes, members; a sequence counted as its own descriptor) gives back the template, except for zero identifiers padded in when a replication or operator lacks its operands; each sequence node's members are the parse of its Table D definition.", "quantifier": "all templates and tables on which Parse succeeds", "why_tests_cant": "All templates of all lengths and nestings.", "anchors": ["deserialize/parser/parser.go", "deserialize/parser/state.go"]}
{"id": "C25", "title": "Replication covers exactly the announced descriptors", "statement": "In a parsed tree a fixed replication 1XXYYY has as members the parse of exactly the X following identifiers, a delayed replication 1XX000 of exactly X+1 (factor first), and parsing resumes right after them.", "quantifier": "all templates", "why_tests_cant": "All positions and nestings.", "anchors": ["deserialize/parser/parser.go: parseFixedReplicationNode, parseDelayedReplicationNode", "deserialize/parser/state.go: takeN"]}
{"id": "C26", "title": "A parser carries no state from one template to the next", "statement": "After Parse returns, normally or with an error, the same Parser behaves on any further template exactly like a new one.", "quantifier": "all histories of templates on one parser", "why_tests_cant": "Histories of failing and succeeding parses.", "anchors": ["deserialize/parser/state.go: assembleOpSkipLocalNode, assembleOpDataNotPresentNode", "deserialize/parser/parser.go: setState, unsetState"]}
{"id": "C27", "title": "Operator 221YYY marks elements as not present", "statement": "Inside the scope of 221YYY, every element descriptor outside classes 1-9 and 31 is decoded without consuming data, and elements of classes 1-9 and 31 are decoded normally.", "quantifier": "all templates with 221YYY", "why_tests_cant": "All classes and scopes.", "anchors": ["deserialize/parser/state.go: notPresent, assembleOpDataNotPresentNode", "deserialize/payload/desvisitor.go: VisitElementNode"]}
{"id": "C28", "title": "Operators are dispatched totally and correctly", "statement": "Each operator 201-208, 221-225, 232, 235-237 yields the node kind documented for it with its own descriptor, and every other operator (241-243, unknown, invalid operands of 222-225/232) is rejected with an error, never ignored.", "quantifier": "all operator identifiers", "why_tests_cant": "All 64*256 operators in every context.", "anchors": ["deserialize/parser/parser.go: parseOperatorNode"]}
{"id": "C29", "title": "Bitmap-related descriptors are partitioned correctly", "statement": "For an assessment operator (222000, 223000, 224000, 225000, 232000) the following identifiers are split, in order and without loss, into the bitmap (up to and including the last of the first run of 031031), the attributes (up to the next replication or member) and the members (up to and including the last of the first run of class-33 elements or markers).", "quantifier": "all templates", "why_tests_cant": "All lengths of the three parts.", "anchors": ["deserialize/parser/state.go: takeWhile, takeTill, assembleAssessmentNode", "deserialize/parser/parser.go: parseBitmapNode"]}
{"id": "C30", "title": "A template that ends too early is rejected", "statement": "If a replication or an operator lacks the descriptors it needs, Parse returns an error.", "quantifier": "all templates and tables", "why_tests_cant": "All truncation points of all templates.", "anchors": ["deserialize/parser/state.go: takeN, take"]}
{"id": "C31", "title": "Missing means all bits set", "statement": "For widths 2..64 a decoded code, flag or numeric element is nil exactly when all its bits are 1; one-bit elements are never missing.", "quantifier": "all widths and values", "why_tests_cant": "2^64 values per width.", "anchors": ["bufr/field.go: IsMissing, MissingValue", "deserialize/unpack/unpacker.go: unpackMissing, unpackNumeric"]}
{"id": "C32", "title": "Numeric values follow (raw + reference) / 10^scale", "statement": "A non-missing numeric element decodes to raw plus the reference value, divided by the power of ten, each operation in IEEE double arithmetic and left out when reference or scale is zero. For integer raw, reference and sum below 2^53: scale zero is exact, scales 1..22 give the double nearest to the exact quotient, scales -22..-1 a relative error of at most 2^-51. Different raw values give different results for every scale in -22..22 while the sums stay within 2^49.", "quantifier": "all raw values, reference values, scales and widths", "why_tests_cant": "Floating point over the whole input range.", "anchors": ["deserialize/unpack/unpacker.go: unpackNumeric", "deserialize/payload/helpers.go: calcPackingInfo"]}
{"id": "C33", "title": "Compressed elements: values and bits consumed", "statement": "For n subsets a compressed code/flag/numeric element reads width+6 bits and then n*d bits, where d is the 6-bit increment width; every subset's value is that of minimum+increment, nil for an all-ones increment (d>1), all equal when d=0; a missing minimum with d>0 is an error. Any reading order or shared value mistake changes the result.", "quantifier": "all streams, widths and subset counts", "why_tests_cant": "All subset counts and increment widths.", "anchors": ["deserialize/unpack/compressed.go: unpackOthers, readNbitsDiff"]}
{"id": "C34", "title": "Compressed and uncompressed encodings of the same data decode equally", "statement": "If column data for n subsets is packed in the compressed form (any legal minimum and increment width), the decoded values of each element and subset equal those decoded from the uncompressed packing of the same raw values.", "quantifier": "all value columns, widths and legal increment widths", "why_tests_cant": "All data sets of all sizes.", "anchors": ["deserialize/unpack/compressed.go", "deserialize/unpack/uncompress.go"]}
{"id": "C35", "title": "Character data is delivered byte for byte", "statement": "An uncompressed character element yields exactly its width/8 bytes from the stream; a compressed one yields the common string for a zero increment width, else one string per subset of that many bytes, and rejects a non-empty common string.", "quantifier": "all streams, widths, subset counts", "why_tests_cant": "All alignments and lengths.", "anchors": ["deserialize/unpack/uncompress.go", "deserialize/unpack/compressed.go: unpackString"]}
{"id": "C36", "title": "Compressed local descriptors (206YYY) are decoded", "statement": "Decoding a compressed 206YYY element of width w returns each subset's w bits.", "quantifier": "all streams and widths", "why_tests_cant": "Termination for all inputs.", "anchors": ["deserialize/unpack/unpacker.go: unpackBinary", "tdcfio/binary.go: NewBinaryFromUint"]}
{"id": "C37", "title": "Operator 203YYY redefines reference values", "statement": "After 203YYY ... 203255, numeric elements named in the definition use the new reference value until cancelled by 203000.", "quantifier": "all templates with a 203YYY definition", "why_tests_cant": "All templates and values.", "anchors": ["deserialize/payload/desvisitor.go: VisitOpNewRefvalNode, reset", "deserialize/payload/helpers.go: calcPackingInfo"]}
{"id": "C38", "title": "Number and indices of subsets", "statement": "A decoded payload has exactly the requested number of subsets, indexed 0,1,2,... in order, for both packings; in the compressed case all subsets have the same number of cells, share one root and, position by position, the same node.", "quantifier": "all templates, streams, subset counts", "why_tests_cant": "All subset counts.", "anchors": ["deserialize/factory.go: NewPayloadField", "bufr/payload.go: Payload.Add", "deserialize/payload/cellsbuilder.go"]}
{"id": "C39", "title": "Cells know their own position and packing", "statement": "In every decoded subset, the cell at position i has a node whose Index is i; the node carries the descriptor and the packing information with which the value was decoded.", "quantifier": "all templates and streams", "why_tests_cant": "All templates, incl. operators that insert cells.", "anchors": ["deserialize/payload/cellsbuilder.go: Add", "deserialize/payload/build.go: buildValuedNodeWithInfo"]}
{"id": "C40", "title": "Subsets are decoded independently", "statement": "Uncompressed subset k is decoded exactly as if it were the first one: operators, associated fields and bitmaps of earlier subsets have no effect on it.", "quantifier": "all templates, streams and subset counts", "why_tests_cant": "Histories of operators over subsets.", "anchors": ["deserialize/payload/desvisitor.go: reset, VisitNode"]}
{"id": "C41", "title": "Every data bit belongs to exactly one value", "statement": "When decoding a subset succeeds, the consumed bits are the concatenation, in cell order, of one segment per cell, and each cell's value is determined by its own segment and packing information alone.", "quantifier": "all templates and streams on which decoding succeeds", "why_tests_cant": "Conservation over all templates.", "anchors": ["deserialize/payload/desvisitor.go", "deserialize/payload/build.go", "deserialize/unpack/uncompress.go"]}
{"id": "C42", "title": "Sequences and fixed replications are transparent", "statement": "Replacing a sequence by its members, or a fixed replication by the written-out repetition of its members, changes neither the decoded values, nor their descriptors, nor the bits consumed.", "quantifier": "all templates built from nested sequences and replications, all streams", "why_tests_cant": "Arbitrary nesting.", "anchors": ["deserialize/payload/desvisitor.go: VisitSequenceNode, VisitFixedReplicationNode", "deserialize/payload/build.go: buildBlock"]}
{"id": "C43", "title": "Operators 201, 202, 207, 208 act on exactly the elements they should", "statement": "The width, scale and reference used for an element are determined by its table entry and the most recent 201, 202, 207 and 208 operator before it in the executed order (including repetitions of replicated blocks): 201/202/207 change numeric elements only, 208 character elements only, operand 0 cancels.", "quantifier": "all templates, all replication counts", "why_tests_cant": "Histories of operators.", "anchors": ["deserialize/payload/desvisitor.go: VisitOp*", "deserialize/payload/helpers.go: calcPackingInfo"]}
{"id": "C44", "title": "Associated fields precede every element in scope", "statement": "Between 204YYY and its matching 204000 every element (except class 31) is preceded in the stream and the cells by one associated value per open 204, outermost first, of exactly YYY bits; class 31 elements, 205YYY and 206YYY have none.", "quantifier": "all templates with nested 204YYY", "why_tests_cant": "Nesting and histories.", "anchors": ["deserialize/payload/build.go: buildAssocNodes, assocPairs", "deserialize/payload/desvisitor.go: VisitElementNode, VisitOpAssocFieldNode"]}
{"id": "C45", "title": "Delayed replication repeats as often as its factor says", "statement": "A delayed replication decodes its factor and then exactly that many repetitions of its members; a missing factor is an error; in compressed data unequal factors across subsets are an error.", "quantifier": "all templates, factor values and streams", "why_tests_cant": "All factor values.", "anchors": ["deserialize/payload/desvisitor.go: VisitDelayedReplicationNode"]}
{"id": "C46", "title": "Bitmaps select the intended target elements", "statement": "For an assessment operator whose bitmap has k entries, the k cells immediately before the operator (or before the first one since 235000) are paired with the bitmap in order, and exactly those whose bit is 0 become targets, in order; 236000 definitions can be recalled by 237000 and cancelled by 237255.", "quantifier": "all templates with bitmaps, all bitmap contents", "why_tests_cant": "All bitmap sizes and contents.", "anchors": ["deserialize/payload/bitmap.go", "deserialize/payload/desvisitor.go: VisitOpAssessmentNode, VisitOpMarkerNode"]}
{"id": "C47", "title": "Difference statistics use the widened packing", "statement": "A 225255 marker is decoded with one extra bit and reference value -2^width of its target element.", "quantifier": "all templates with 225000/225255", "why_tests_cant": "All target widths.", "anchors": ["deserialize/payload/desvisitor.go: VisitOpMarkerNode"]}
{"id": "C48", "title": "Directly defined bitmaps (without 236000) are supported", "statement": "An assessment operator directly followed by a bitmap definition decodes like one defined by 236000.", "quantifier": "all templates with ad-hoc bitmaps", "why_tests_cant": "All such templates.", "anchors": ["deserialize/payload/desvisitor.go: VisitBitmapNode", "deserialize/parser/parser.go: parseBitmapNode"]}
{"id": "C49", "title": "The hierarchical view contains every decoded value", "statement": "Every cell of a subset is reachable from the subset's root node through Members().", "quantifier": "all templates and streams", "why_tests_cant": "All nestings.", "anchors": ["deserialize/payload/treebuilder.go: Push, Pop", "deserialize/payload/desvisitor.go"]}
{"id": "C50", "title": "The first start signature is found", "statement": "Run positions the reader at the first byte-aligned occurrence of 'BUFR' at or after the current position, consuming exactly the bytes before it; if there is none it returns an error.", "quantifier": "all streams", "why_tests_cant": "All streams and offsets.", "anchors": ["deserialize/factory.go: SeekStartSignature"]}
{"id": "C51", "title": "Sections end where their length says", "statement": "After a section with a length field has been decoded successfully, exactly length*8 bits have been consumed since its start, or an error was returned because more were needed.", "quantifier": "all streams, all length values", "why_tests_cant": "All lengths vs all contents.", "anchors": ["deserialize/factory.go: Padding, NewSection, NewTemplateField"]}
{"id": "C52", "title": "The template field holds the section's descriptors", "statement": "NewTemplateField reads exactly floor(remaining bits of the section / 16) descriptors, in order, each with F, X, Y taken from its 2+6+8 bits, and reports the number of bits it used.", "quantifier": "all streams and section lengths", "why_tests_cant": "All lengths.", "anchors": ["deserialize/factory.go: NewTemplateField"]}
{"id": "C53", "title": "Message layout", "statement": "A successfully decoded message has sections 0,1,(2),3,4,5 in this order, with section 2 present exactly when the flag bit says so, using the edition's own section 1 layout; editions other than 3 and 4 are rejected.", "quantifier": "all streams", "why_tests_cant": "All streams and flags.", "anchors": ["_definitions/boot.lua", "_definitions/bufr3/bufr3.lua", "_definitions/bufr4/bufr4.lua", "_definitions/common/*.lua"]}
{"id": "C54", "title": "The stop signature is checked", "statement": "A message whose last four bytes are not '7777' is rejected.", "quantifier": "all streams", "why_tests_cant": "All wrong signatures.", "anchors": ["_definitions/common/section5.lua", "api/libdeserializer.go: newField"]}
{"id": "C55", "title": "CheckEOF detects the end of the stream", "statement": "CheckEOF returns true, nil exactly when no byte is left.", "quantifier": "all streams", "why_tests_cant": "All stream states.", "anchors": ["deserialize/factory.go: CheckEOF", "tdcfio/bitreader.go: PeekUint"]}
{"id": "C56", "title": "The edition number is peeked for JSON input too", "statement": "PeekEditionNumber returns the edition number of the message at the read head for both input types.", "quantifier": "all messages", "why_tests_cant": "All messages.", "anchors": ["deserialize/factory.go: PeekEditionNumber"]}
{"id": "C57", "title": "Fields and proxy fields are found by name", "statement": "FieldByName returns the first field of that name in the section; ProxyField returns the most recently registered proxy field of that name and an error if there is none.", "quantifier": "all sequences of field additions", "why_tests_cant": "All histories.", "anchors": ["bufr/section.go: FieldByName, AddField", "bufr/message.go: SetProxyField, ProxyField"]}
{"id": "C58", "title": "JSON output can be read back", "statement": "Reading the JSON form of a decoded payload with the same template gives the same values.", "quantifier": "all payloads", "why_tests_cant": "All value combinations.", "anchors": ["bufr/payload.go: MarshalJSON", "bufr/cell.go: MarshalJSON", "tdcfio/binary.go: MarshalJSON", "deserialize/unpack/uncompress.go: JsonUnpacker"]}
{"id": "C59", "title": "Whole payloads round-trip", "statement": "For every template of elements, sequences, fixed and delayed replications and packing operators, and every tree of raw values that fits, packing the raw values with the bit writer and decoding returns, in order, the value of every raw datum and consumes exactly the packed bits.", "quantifier": "all templates in the class and all raw data", "why_tests_cant": "Unbounded templates and data.", "anchors": ["deserialize/payload/*", "deserialize/unpack/uncompress.go", "tdcfio/*"]}
{"id": "C60", "title": "Several messages in one stream", "statement": "After a message has been decoded the reader stands right behind its end section, so repeated runs decode the messages of a concatenated stream one after the other, skipping any garbage bytes between them.", "quantifier": "all streams of messages", "why_tests_cant": "All concatenations.", "anchors": ["runtime.go: Run", "api/scriptrt.go: RunDeserializer", "deserialize/factory.go"]}
{"id": "C61", "title": "Typed cell access", "statement": "UintValue/IntValue/FloatValue/StringValue return the cell's value when it has a compatible type and an error otherwise, in particular for missing values; integer views of numeric cells round half away from zero.", "quantifier": "all cell values", "why_tests_cant": "All values.", "anchors": ["bufr/cell.go"]}
{"id": "C62", "title": "Compatible mode only adds zero cells", "statement": "Enabling Compatible inserts exactly one zero-valued cell per executed assessment operator and per bitmap definition/recall operator, and changes neither the other values nor the bits consumed, for binary input.", "quantifier": "all templates and streams", "why_tests_cant": "All templates.", "anchors": ["deserialize/payload/build.go: buildZeroNode", "deserialize/payload/desvisitor.go"]}
{"id": "C63", "title": "Lint accepts parser output", "statement": "Linting a node produced by the parser from a valid template reports no error.", "quantifier": "all valid templates", "why_tests_cant": "All templates.", "anchors": ["deserialize/ast/lint.go"]}
{"id": "C64", "title": "Dumping a parsed template is complete and balanced", "statement": "Dumping a parsed tree writes one line per node (a delayed replication's factor on its own line), indented by its depth, restores the indentation, and fails only if the writer fails.", "quantifier": "all parsed trees", "why_tests_cant": "All trees.", "anchors": ["deserialize/ast/dump.go"]}
{"id": "C65", "title": "No payload content can crash or hang the decoder", "statement": "For templates built from elements, sequences, replications, 201, 202, balanced 204, 205, 206, 207 and 208, decoding any bit stream as uncompressed data ends with subsets or an error, never with a panic or without end; if the stream is shorter than the data described, it ends with an error.", "quantifier": "all templates in the class, all bit streams", "why_tests_cant": "Every hostile input.", "anchors": ["deserialize/payload/desvisitor.go", "deserialize/unpack/uncompress.go"]}
{"id": "C66", "title": "Table D records are loaded faithfully", "statement": "A Table D record listing descriptors as six-digit texts is loaded into a sequence of exactly those identifiers in order; a member that is not a number is rejected with an error; and a loaded table contains exactly the sequences of its file.", "quantifier": "all Table D files and records", "why_tests_cant": "Every list of identifiers and every file content must load faithfully; tests cover a handful of shipped tables.", "anchors": ["table/table.go: LoadTableD, recordToDentry", "table/descriptor.go: ID.String"]}
{"id": "C67", "title": "Attributes are attached to the values they describe", "statement": "In the hierarchical view of a decoded subset every value has a node of its own, and Members() of that node are exactly, in order, the associated-field values decoded for it (204), then the quality and statistics values a bitmap attaches to it; an associated field has the 031021 value that gave its significance as first member; the attributes between a bitmap and its quality or statistics values are members of each of those; nothing else is a member of a value.", "quantifier": "all templates that parse, compressed or not, binary or JSON, and all data they decode", "why_tests_cant": "Nested 204 operators, replications, recalled bitmaps and bitmap contents combine without limit, and each combination determines another set of links.", "anchors": ["deserialize/payload/desvisitor.go: buildAssocNodes, VisitElementNode, VisitE031021Node, VisitOpAssessmentNode", "deserialize/payload/treebuilder.go", "bufr/node.go: AddMember, Members"]}
{"id": "C68", "title": "Whole messages round-trip", "statement": "The contents of a message - header fields of edition 3 or 4, an optional section, a template the tables know, and data that fit it, subset by subset or compressed - written section by section with the bit writer take exactly the announced total length. Running the decoder on those bytes, behind any bytes without a start signature and with anything following, succeeds: section numbers and start positions, names and values of all fields, the template and every datum are the ones written, and the reader stands right behind the message. A stream of such messages with other bytes between them is decoded completely and in order, and then an error is reported. Conversely, whenever bytes decode to a message, its section 3 holds the template, the number of subsets and the compression flag, and the bits between the head and the padding of its section 4 are data laid out for that template under the tables section 1 names, with exactly the values of the payload.", "quantifier": "all header values that fit their fields, all optional sections, all templates that parse with the tables named by the message (bitmaps and markers included), all data laid out for them that fit, any number of messages, all bytes between and behind them", "why_tests_cant": "Headers, templates, data, paddings and surrounding bytes combine without limit; sample files only cover a few messages produced by a few centres, and never compare with what was encoded.", "anchors": ["deserialize/factory.go", "_definitions/", "bufr/message.go", "bufr/section.go", "tdcfio/bitwriter.go"]}
{"id": "C69", "title": "Data for any template round-trip, and decoding accepts nothing else", "statement": "Data laid out for a template of any kind - nested and delayed replications, operators, absent data (221), bitmaps defined or recalled, quality and statistics operators, markers that take the packing of the element they point to - and written with the bit writer decode to exactly those data, under the same descriptors and packings, in order, uncompressed or compressed, and the reader stops right behind them. Conversely every uncompressed payload that decodes was so laid out, and the bits read are exactly those the writer produces from the decoded data (signed codes apart, whose zero has two forms). For compressed data the same holds of every sequence of columns - any minimum, any increment width, any increments - whether or not a conforming writer would produce it: what decodes is such a sequence and decodes to the values its columns mean, so a minimum plus an increment beyond the width of the field is taken at face value.", "quantifier": "all templates that parse, all data laid out for them that fit their fields (numbers up to 64 bits), any number of subsets, compatible mode on or off, all padding and following bytes", "why_tests_cant": "What a template asks for depends on earlier values (factors, bitmap bits), so the possible layouts are unbounded in number and no sample covers their combinations; and that nothing else is accepted cannot be observed on samples at all.", "anchors": ["deserialize/payload/desvisitor.go", "deserialize/payload/bitmap.go", "deserialize/unpack/uncompress.go", "deserialize/unpack/compressed.go", "tdcfio/bitwriter.go"]}
{"id": "C70", "title": "Constants print their names", "statement": "Operators, walk event codes, units and data types print the name of the constant they equal; any other number prints the type with the number in parentheses; nothing panics and different values print differently.", "quantifier": "all integers, for each of the four enumerated types", "why_tests_cant": "The generated tables slice one long string by hand-checked offsets; a test would print a few constants and could not rule out a panic or a clash for the rest of the integers, nor that the file was not regenerated after a constant was added.", "anchors": ["table/operator_string.go", "table/eventcode_string.go", "table/unit_string.go", "deserialize/datatype_string.go"]}
{"id": "C71", "title": "Printed texts identify what they print", "statement": "The text of a descriptor tells its identifier and whether it is an associated field; the text of a value's node tells its position, identifier and width; the text of a list of descriptors tells the list; whatever the table names are, even if they contain brackets, digits or parentheses. No two values of a decoded subset print the same and all print without panic.", "quantifier": "all descriptors with six-digit identifiers (five for decorated elements), all table names, all nodes, all descriptor lists, all decoded payloads", "why_tests_cant": "Names in the tables are arbitrary text and could imitate the punctuation; that no two different nodes ever print alike ranges over pairs of all nodes.", "anchors": ["table/descriptor.go:68-70", "table/descriptor.go:106-111", "table/descriptor.go:169-171", "bufr/node.go:80-82", "table/template.go:55-57"]}
{"id": "C72", "title": "The shipped tables load and combine", "statement": "Every shipped Table B and Table D loads, whatever the order of its rows, to exactly its elements and sequences with their units, scales, references, widths and members. With the shipped tables and no others, a lookup by master table, centre, sub-centre and versions succeeds exactly for master table 0, WMO versions 6 to 41, and no local version or local version 1, 2, 3 or 101 of centre 98 (any sub-centre) or, for centre 0, a second WMO version; it yields the local table in front of the WMO table. With the groups so made, parsing ends for every list of identifiers.", "quantifier": "all orders, names and CREX columns of the rows of all 40 shipped tables; all file systems holding them; all numbers of a request; all identifier lists", "why_tests_cant": "A test loads some of the tables as they are on disk and parses some templates; it cannot cover all orders in which a map is iterated nor all templates, and a cycle among the sequences would hang only for the templates that reach it.", "anchors": ["_definitions/tables", "table/table.go:123-265", "table/group.go:26-120", "deserialize/parser/parser.go"]}
{"id": "C73", "title": "Templates made of the shipped tables parse", "statement": "Every template composed of elements and sequences in a table group, replications over complete blocks, operators without operands and associated fields parses.", "quantifier": "all table groups made of the shipped tables (36 WMO versions, each alone and behind 4 local versions); all templates composed of their descriptors, of any length and nesting", "why_tests_cant": "Templates are unbounded and there are 180 groups; a dangling reference shows only in the groups and templates that reach it.", "anchors": ["_definitions/tables", "table/group.go:45-76", "deserialize/parser/parser.go"]}
{"id": "C74", "title": "Numbers of shipped elements decode accurately", "statement": "For every numeric element of the shipped tables and every raw number that fits its width, the decoded value is finite, within a relative error of 2^-51 of (raw + reference) / 10^scale, and different from the value of every other raw number; after operators 201, 202 and 207 as well (2^-50), up to 47 bits and 207005. Strings are whole octets and no other element has more than 32 bits.", "quantifier": "all elements of all groups made of the shipped tables, all raw numbers, all operators in force", "why_tests_cant": "About two thousand elements times up to 2^32 raw numbers times the operators; rounding errors depend on the particular number.", "anchors": ["_definitions/tables", "deserialize/unpack/uncompress.go", "deserialize/payload/helpers.go:10-51"]}
{"id": "C75", "title": "Units of the shipped tables are recognised", "statement": "An element whose unit says that it refers to a code table or a flag table is treated as one: it decodes to an unsigned integer and operators 201, 202 and 207 do not change its width. An element is treated as a string exactly if its unit says that it holds characters.", "quantifier": "all elements of all groups made of the shipped tables, all operators in force", "why_tests_cant": "The spelling of the units changed between table versions (CODE TABLE, Code table, ...); a test of one version says nothing about the others, and the effect shows only for values under an operator or in the Go type of a value.", "anchors": ["_definitions/tables", "table/table.go:26-38", "deserialize/payload/helpers.go:10-51"]}
{"id": "C76", "title": "Bitmaps and their values may be given with delayed replication", "statement": "Whether the bits of a bitmap (236000 101000 031001 031031), or the quality or statistics values behind it (101000 031001 033007), are given with a fixed or a delayed replication makes no difference: the i-th value belongs to the element with the i-th zero bit, and a bitmap may cover all elements before the operator. The replication factors themselves are neither bits nor values.", "quantifier": "all templates with such an operator at top level, all data, numbers of bits and values, compressed or not, compatible mode or not", "why_tests_cant": "The number of bits and of values is chosen by the data; the cases in which a wrong count goes unnoticed (fewer values than zero bits, more elements than bits) decode without an error.", "anchors": ["deserialize/payload/desvisitor.go:279-314", "deserialize/payload/desvisitor.go:342-373", "deserialize/payload/bitmap.go:41-108"]}
{"id": "C77", "title": "No byte string can crash or hang the message decoder", "statement": "Whatever bytes are given, asking for the next message ends with a message or an error, and the decoder can be asked again; it never panics and never loops without end.", "quantifier": "all byte strings, all reader states, all table directories that hold no cycle (the shipped ones among them)", "why_tests_cant": "A test can only try some damaged messages; the claim is about all of them, including lengths that contradict each other and streams that end anywhere.", "anchors": ["runtime.go:51-53", "deserialize/factory.go:149-269", "_definitions/common", "_definitions/bufr3", "_definitions/bufr4", "tdcfio/bitreader.go:80-104"]}
{"id": "C78", "title": "The JSON form of a message can be read back", "statement": "Marshalling a decoded message to JSON gives an array with one array per section holding the forms of the section's fields in order, and running the decoder on that JSON through the flat JSON reader decodes the same message again.", "quantifier": "all messages decoded from byte streams, all table directories and configurations", "why_tests_cant": "A test compares the JSON of some messages; whether the form can be read back depends on how every kind of field is written and on the signature search, for all messages.", "anchors": ["bufr/message.go:62-64", "bufr/section.go:67-69", "bufr/field.go:72-74", "deserialize/factory.go:256-269", "tdcfio/flatjsonreader.go:132-138"]}
{"id": "C79", "title": "The two readers as the decoder uses them", "statement": "Reading n bits through the reader interface advances the reported position by n (eight per byte, 32 for a floating-point number), for binary data and for JSON alike. On binary data a successful read takes exactly those bits and returns what they spell: an unsigned number, sign and magnitude, a boolean, bytes, a bit string, or an IEEE single-precision number; with too few bits left it takes no more than there is and reports the end of the data, except that a bit string is then returned as nil (C08). On a JSON document it takes exactly one scalar, looked-at ones first, and converts it or reports an error.", "quantifier": "all reading calls of the interface and all sizes, all bit streams with any error at their end, all JSON token streams with any scalars other than null already looked at; ReadFloat32 on JSON is C14", "why_tests_cant": "Tests read a few values of a few sizes; the position after any call, on any remaining data and for every single-precision bit pattern, is beyond them.", "anchors": ["tdcfio/reader.go", "tdcfio/bitreader.go", "tdcfio/flatjsonreader.go"]}
{"id": "C80", "title": "Missing fields", "statement": "A field of a message section reports itself missing exactly when it was read as an unsigned number of at least two bits all of which are set; MissingValue gives, for 1 to 64 bits, the number with all bits set, an error for other sizes, and from two bits on it is the one number for which a field reports itself missing.", "quantifier": "all data types, widths from 0 to 64 bits, all bit streams and states of the message being built; all sizes given to MissingValue", "why_tests_cant": "The test is on every width and every bit pattern together with every data type.", "anchors": ["bufr/field.go:8-37", "bufr/field.go:68-70", "deserialize/factory.go:113-147"]}
{"id": "C81", "title": "A failing output is reported", "statement": "If the io.Writer behind a BitWriter accepts only the first k bytes and answers every further Write with an error, then a sequence of writes that stops at the first error succeeds exactly when all complete bytes of the written bits fit into k; otherwise the io.Writer's own error comes back from the very write that completes byte k+1, and the io.Writer has received exactly the first k bytes of the output. A Binary announced with another size than it has is refused without writing anything.", "quantifier": "all sequences of writes with all values and widths, all k, all errors", "why_tests_cant": "The failure can hit any byte of any write at any bit alignment; tests fail at a few chosen places.", "anchors": ["tdcfio/bitwriter.go:17-75", "tdcfio/writer.go:4-17"]}
{"id": "C82", "title": "Single precision numbers are written correctly rounded", "statement": "WriteFloat32 writes 32 bits: the IEEE 754 single precision number nearest to its argument (ties to even, infinity when that is out of range, zero and sign kept; NaN as NaN). A number that is representable in single precision is written as exactly its pattern, and ReadFloat32 of the bit reader gives back the same number.", "quantifier": "all float64 arguments, all states of the writer with room for the bits; all single precision patterns other than NaN, whatever follows them in the stream", "why_tests_cant": "There are 2^64 arguments; rounding is about every one of them, including subnormal results and the border to infinity.", "anchors": ["tdcfio/bitwriter.go:77-79", "tdcfio/bitreader.go:106-112", "tdcfio/writer.go:16-17"]}
{"id": "C83", "title": "Numbers pass through the definition scripts unchanged", "statement": "The definition scripts decide about section widths, lengths, subset counts and table versions with the numbers they get from field:value() and hand back to newField, padding, newTemplateField, newPayloadField and initTableGroup. Decoding binary input, turning each of these numbers into a Lua number (float64), computing with it in the script and turning it back changes nothing: every call of Run has the same outcome and effect as with exact integers. In general a script gets the number, boolean or bit string a field holds, and an error exactly for bytes, templates and payloads; a number of less than 54 bits comes back unchanged where a width or a count is expected, and unchanged where a section length is expected exactly if it is not negative and below 2^32. Beyond these limits numbers change.", "quantifier": "all inputs, configurations and states with a binary reader; all field values; all numbers", "why_tests_cant": "The conversion is lossy for some numbers; that none of them can occur in a binary message is a statement about all messages.", "anchors": ["api/helpers.go:36-64", "api/objfield.go:22-31", "api/libdeserializer.go:26-143", "api/scriptrt.go:69-97", "_definitions/common/section2.lua"]}
{"id": "C84", "title": "The printed line of a value", "statement": "A cell prints, without panic, as the text of its node filled up with blanks to 81 characters, a blank, and its value: missing values as <nil>, numbers in decimal, bit strings as their bits, character data as quoted text. Lines printed with the same tables are equal only if position, descriptor and width of the values are and, for values of one kind, the values; only missing values print as <nil>.", "quantifier": "all cells, all table names (UTF-8), all values; the text of a floating-point number is any function", "why_tests_cant": "Names and values are arbitrary and could imitate the punctuation; that no two different values ever print alike ranges over all pairs.", "anchors": ["bufr/cell.go:24-33", "bufr/node.go:80-82", "tdcfio/binary.go:71-85"]}
{"id": "C85", "title": "A runtime can be called again and again", "statement": "Run may be called any number of times on one runtime: each call returns the message it has decoded, or its error, whatever the calls before it returned, and no call leaves anything behind in the script interpreter.", "quantifier": "all configurations, inputs, states of the runtime and sequences of calls", "why_tests_cant": "What a call leaves behind shows only after a number of calls that depends on the interpreter's limits.", "anchors": ["api/scriptrt.go:31-84", "runtime.go:36-53"]}
{"id": "C86", "title": "Walking a template works under every schedule", "statement": "However the goroutines of a template walk are scheduled, the channel delivers the events of the walk in order and nothing depends on the schedule; the walk waits for its caller only to deliver an event or, right after a replication factor, to take a count; it ends after finitely many steps; it uses at most one goroutine more than the template has levels; and all goroutines are gone soon after the last event, while a caller that stops earlier leaves some behind.", "quantifier": "all expanded templates, counts and schedules", "why_tests_cant": "A test sees one schedule; deadlocks and leaks depend on the interleaving and on how far the caller reads.", "anchors": ["table/template.go:109-122", "table/template.go:145-175", "table/template.go:198-222"]}
{"id": "C87", "title": "A message once returned never changes", "statement": "Every successful call of Run returns a message object of its own, which shows what that call has decoded and goes on showing it however often Run is called later and whatever comes of it. Of whatever calls a custom definition script makes, none takes anything away from a message, none leaves a dangling reference, and none changes an earlier message, provided the script opens a section after newMessage before it reads fields (a field read before that is added to the last section of the earlier message).", "quantifier": "all configurations, streams, numbers of calls, and all sequences of script calls with all arguments and outcomes", "why_tests_cant": "Aliasing shows only when an earlier message is inspected after later calls, for every history of calls and failures.", "anchors": ["deserialize/factory.go:69-101", "bufr/message.go:10-77", "bufr/section.go:36-62", "api/libdeserializer.go:13-158", "api/scriptrt.go:69-84"]}
{"id": "C88", "title": "The text of the shipped definition scripts decodes what the decoder is said to decode", "statement": "The runtime can be initialised with the shipped definition scripts whatever other files lie beside them, and every call of Run, carried out by interpreting the text of these scripts, gives the message, the failure and the position in the input that the decoder described by the other properties gives, however many messages were decoded before. With any other scripts, what a run does to messages and sections is a sequence of calls of the functions given to scripts: nothing is taken away from a message and no dangling reference is left.", "quantifier": "all configurations, inputs, numbers of calls, definition directories that contain the shipped scripts; for the second part all script texts", "why_tests_cant": "Tests run the scripts on a few messages; a script statement that goes wrong only for certain field values, input ends or earlier failures is not met.", "anchors": ["_definitions/boot.lua", "_definitions/bufr4/bufr4.lua", "_definitions/bufr3/bufr3.lua", "_definitions/common", "api/scriptrt.go:33-120", "api/libdeserializer.go:13-158", "api/objmessage.go", "api/objsection.go", "api/objfield.go"]}
{"id": "C89", "title": "Runtimes that share the table cache do not disturb each other", "statement": "When any number of runtimes decode streams at the same time in one process, each with its own input, configuration and tables directory, every call of Run of each of them gives the message or failure, and leaves the input at the position, that it would if the runtime were alone and read its tables from the files each time. The runtimes never block each other for ever: while one has not finished some runtime can move, all of them together make a bounded number of steps in the cache, and from every reachable state all can finish. No two of them touch a map of the cache at the same time when one of them writes it.", "quantifier": "all numbers of runtimes, configurations, inputs, numbers of calls, contents of table files, interleavings of the statements of the cache", "why_tests_cant": "Tests run one runtime in one goroutine; interleavings of several cannot be enumerated by running them, and a wrong table taken from the cache would show only in another runtime.", "anchors": ["table/manager.go:14-101", "table/group.go:26-115", "deserialize/factory.go:103-111", "api/scriptrt.go:69-84"]}
{"id": "C90", "title": "How the input arrives does not matter", "statement": "Whatever is done with a PeekableBitReader through its interface gives the same results and leaves it at the same position no matter in what pieces the io.Reader below it hands out its bytes, and whether it reports its end together with the last bytes or after them: the results are those on the stream of the bits. In particular any number of calls of Run on an input that arrives in any pieces give the messages and failures they give on the bits.", "quantifier": "all bytes, errors at the end, sizes of pieces (each at least one byte), programs over the operations of the reader, configurations, numbers of calls of Run", "why_tests_cant": "Tests read from files and byte slices, which hand out as much as is asked for; the sizes in which a network or pipe delivers are unbounded in number and show only where a piece ends in the middle of a value or of a look-ahead.", "anchors": ["tdcfio/bitreader.go:12-180", "tdcfio/reader.go:20-47"]}
{"id": "C91", "title": "Messages end", "statement": "A call of Run, whatever comes of it, leaves a suffix of the input it found, and a message takes at least 41 bytes of it. So a finite input yields at most as many messages as it has 41 bytes, however often Run is called, and a program that decodes message by message until a call fails ends. Whether the next call yields a message, and its sections, depend on the bytes up to the message's end only: what follows does not matter, and input that breaks off before that end yields no message.", "quantifier": "all configurations, inputs, states of the decoder, numbers of calls, continuations and cuts of the input", "why_tests_cant": "Tests decode whole files; that a loop over messages ends on every input, and that no cut-off message is ever taken for a whole one, are statements about all inputs and all places to cut.", "anchors": ["runtime.go:51-53", "api/scriptrt.go:69-84", "deserialize/factory.go:113-269", "_definitions/boot.lua", "tdcfio/bitreader.go:28-114"]}
{"id": "C92", "title": "The hierarchical view can be walked to its end", "statement": "Following Members() from a node of a decoded subset, from member to member, always comes to an end: no node is its own member, directly or through others. It holds for templates without the operators that use bitmaps (222-225, 232), with a bound of two steps per node. It is false in general: quality information on the 031021 of an associated field that is still in force makes that node a member of its own attribute, and a program that follows Members() never ends.", "quantifier": "all tables, templates, configurations and inputs; all nodes and walks of every decoded subset", "why_tests_cant": "Tests walk the trees of a few files; that no input of any template links nodes in a circle is a statement about all of them, and the circle needs a combination of operators that no test file has.", "anchors": ["bufr/node.go:64-77", "deserialize/payload/build.go:54-70", "deserialize/payload/desvisitor.go:100-132", "deserialize/payload/desvisitor.go:286-313"]}
