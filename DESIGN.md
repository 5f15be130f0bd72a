# Formal model of KDE/libstreams in Rocq (Coq 8.16.1)

## Approach

* `theories/Base.v`: bytes, 32/64 bit ranges, slices, and the outcome type
  `out A := Ret a | UB | Abort | Hang`.  Undefined behaviour (signed overflow, access outside a
  buffer, use of a freed object), failed `assert`s or exceptions, and loops that do not end within the
  bound derived for them are *distinct outcomes* of the model, so a theorem concluding `... = Ret r`
  also says that none of them happens.
* `theories/StreamSpec.v`: the small, independent specification of the stream API taken from the
  documentation in `include/strigi/streambase.h`: a content list, a position, and the segment of the
  last read (positions inside it can be `reset` to).  `Conforms o content fails lim s v` says that every
  finite history of documented calls on the stream `s` returns and shows exactly the content.
* `theories/M_*.v`: models, function by function; every definition cites the file and lines it
  models and says what it leaves out.  A stream implementation is a record of functions over its own
  state type (`ops St A`); a stream wrapping another stream is an ordinary polymorphic function of the
  parent's `ops`, so every theorem about a wrapper holds for *every* parent that satisfies the contract.
* `theories/*Spec.v`: the specifications (file formats, grammars, what a listing is), written
  independently of the models: they describe the format or the result, not the algorithm.
* `theories/P_*.v`: proofs.  `theories/T_*.v`: the property theorems, named `Cnn_...`, each with a concrete
  case (`Cnn_case...`) that meets its hypotheses.

Where the code does not have the property (this happens often), there is a theorem
`Cnn_..._refuted` with a concrete input on which the model of the code violates it, and the strongest
statement I could prove is named `_partial` (the full statement is in properties.jsonl, the gap is in
MANIFEST.json).

External libraries (zlib, bzip2, iconv, mktime, the pipes and the child process, file I/O errors) are
parameters of the model (ordinary function arguments or records) with the assumed behaviour a
visible hypothesis of each theorem (`InflateSpec.codec_ok`, `EncSpec`, ...), each shown to be satisfiable.

## Trusted base

* The kernel of Coq 8.16.1, including `vm_compute` (used for concrete cases and finite tables).
* `Print Assumptions` reports "Closed under the global context" for every `Cnn_` theorem.  No axioms are declared or used.
  (Loading the standard library's `ssr` files makes seven abstract constants of `Coq.ssr.ssrunder` visible;
  no theorem depends on them.)
* The faithfulness of the models `M_*.v` to the C++ text (hand translation, read against /repo), and
  that the `*Spec.v` files say what the English properties say.
* Conventions of the translation: `char` is signed on the modelled platform where it matters (M_Cpio,
  M_Ole) and bytes are numbers 0..255 otherwise; `int` is 32 bit, `int64_t` 64 bit; signed overflow is UB
  (`chk32`) where it can occur, conversions to a narrower type wrap; memory allocation never fails;
  pointers are offsets into the list of accessible bytes, access outside is UB; error texts,
  messages on stderr and destructors without visible effect are left out.
* Loops are modelled by recursion on fuel.  Where the bound is not obvious, running out of fuel is the
  outcome `Hang`, and theorems prove that it does not happen (`mu`/`gas` of M_Buffered, M_Inflate,
  M_Encoding only feed such bounds and are no part of the code).

## What is modelled

| code in /repo | model | theorems |
|---|---|---|
| include/strigi/streambase.h (contract, default skip) | StreamSpec, M_Sub (`default_skip`) | C09, C10 |
| include/strigi/stringstream.h | M_StringStream | C01 |
| include/strigi/streambuffer.h, bufferedstream.h | M_Buffered (memory cell by cell) | C02-C05 |
| lib/subinputstream.cpp | M_Sub | C06-C08 |
| lib/fileinputstream.cpp, mmapfileinputstream.cpp, skippingfileinputstream.cpp | M_File; FileInputStream::open and failures: M_FileFail | C21; C58 |
| lib/skippingbufferedstream.h, skippingfileinputstream2.cpp | M_Skipping | C39 |
| lib/kmpsearcher.cpp | M_Kmp | C11 |
| lib/stringterminatedsubstream.cpp | M_StringTerm | C12 |
| lib/base64inputstream.cpp | M_Base64; with the tables as memory shared by threads: M_Base64Threads | C13, C14; C57 |
| lib/textutils.cpp, textutils.h, dostime.cpp | M_Text | C15-C19 |
| lib/dataeventinputstream.cpp, signatureinputstream.cpp | M_DataEvent | C20, C36 |
| lib/arinputstream.cpp, cpioinputstream.cpp, tarinputstream.cpp | M_Ar, M_Cpio, M_Tar | C22-C24, C26, C27; C59 (cut-off cpio and ar archives) |
| lib/zipinputstream.cpp | M_Zip | C25-C27 |
| lib/gzipinputstream.cpp, bz2inputstream.cpp | M_Inflate | C29 |
| lib/gzipcompressstream.cpp | M_Deflate | C47 |
| lib/lzmainputstream.cpp (with the m_size it shares with BufferedStream) | M_Lzma, M_LzmaReal (with the bundled decoder) | C48 |
| lib/lzma/LzmaDec.c: LzmaProps_Decode, LzmaDec_Allocate/Init, LzmaDec_DecodeToBuf and everything below it (DecodeToDic, DecodeReal, DecodeReal2, WriteRem, TryDummy, InitRc) | M_LzmaDec | C50 |
| lib/encodinginputstream.cpp, inputstreamreader.cpp | M_Encoding | C30 |
| lib/sdfinputstream.cpp | M_Sdf | C31, C26 |
| lib/mailinputstream.cpp 48-203 (header decoding), 210-309 (checkHeader) | M_Mail, M_Detect | C32, C34 |
| lib/mailinputstream.cpp 311-684 (headers, parts, nextEntry) | M_MailList | C45, C46 |
| lib/archiveentrycache.cpp, listinginprogress.cpp | M_Cache, M_Listing | C33, C40 |
| all checkHeader functions, substreamproviderprovider.cpp | M_Detect | C34 |
| lib/archivereader.cpp 35-62, 114-134, 191-205, 434-485 (lifetimes) | M_DirLister | C35 |
| lib/archivereader.cpp 35-112, 212-302, 303-400, 416-520 and listinginprogress.cpp 238-271 (answers) | M_Reader | C42-C44 |
| lib/listinginprogress.cpp 80-158 (subStreamProvider), archivereader.cpp 174-190 (the map of formats) | M_Open | C49 |
| lib/listinginprogress.cpp 160-248 on real streams (with M_Open and all readers); simplification: the position of an entry stream in status Error is the one before the failing call | M_ListReal | C53, C55 |
| lib/rpminputstream.cpp | M_Rpm | C37 |
| lib/processinputstream.cpp | M_Process | C38 |
| lib/oleinputstream.cpp | M_Ole | C28, C41 |
| lib/compat.cpp (without mkstemp) | M_Compat | C51 |
| lib/filestreamopener.cpp | M_Opener | C52 |

## What is not modelled

* The bodies of zlib, libbz2 and iconv.
* Of lib/lzma/LzmaDec.c: LzmaDecode (the interface with one call, not used by the library), LzmaDec_AllocateProbs, the functions
  that free memory, the variants for _LZMA_SIZE_OPT and _LZMA_PROB32, failing allocation (except as `alloc_ok` in M_Lzma).
* Failures of fork and pipe, failures of SkippingFileInputStream2's fseeko, threads (except in M_Base64Threads: the base64 tables are the only variables that different streams share; sequential consistency).
* mkstemp of lib/compat.cpp (Windows only), lib/config, build system, test programs, the command line tools.

## Proof methods

| id | how it is proved |
|----|------------------|
| C01 | simulation with the contract (`sim`), lifted to all histories by induction (`sim_conforms`) |
| C02-C05 | representation invariant relating the buffer memory to the content; measure for the fill loop |
| C06-C08 | simulation built from the parent's simulation |
| C09, C10 | induction on the remaining amount / content |
| C11 | safety of each shift of the turbo Boyer-Moore search; invariant of the turbo memory |
| C12 | simulation over arbitrary parents, with C11 for the search |
| C13, C14 | bit-group arithmetic; the fillBuffer source hands out pieces of the decoding |
| C15-C17 | grammar as inductive relation; induction over the bytes with the automaton state generalised |
| C18, C19 | base-256 digits, bit fields |
| C20 | invariant on the log of handler calls |
| C21, C39 | simulation; SrcOK for fillBuffer |
| C22-C25, C37 | every member: parser lemma on the header bytes, C06 for the entry stream, induction on the members |
| C26, C27 | `Tame`: a weaker stream contract that holds after arbitrary calls; measure = bytes of input left; for mail also `Seek`: how far reset() can go forward |
| C28, C41 | the set of used blocks bounds the length of chains; memory invariant of the constructor |
| C29, C30, C47, C48 | the library as an automaton with a unique meaning per input; SrcOK for fillBuffer |
| C31 | listing as inductive relation, induction on the file |
| C32 | induction over pieces (plain text, encoded words) |
| C33, C40 | trees, paths; stack invariant of the traversal |
| C34 | case analysis on the bytes; the spec is written on the format |
| C35 | invariant: reference count = number of holders |
| C42-C44 | invariant over whole programs: every listing in progress is the tree of a prefix of the entries (stack invariant of C40); a lister has returned distinct children of its node; the url walk is induction on the path |
| C45, C46 | messages as an inductive grammar (MailPartsSpec); a line scanner lemma per line kind; induction on the grammar; the streams of parts are those of C12 and C14 on the shared input, so the invariant of C12 carries on after any history of calls |
| C49 | each peek at the input hands out again what was there (repeatable); induction on the rounds of the loop, each takes off at least one layer; then the listings of C22, C24, C25, C37, C45 on the stream that is left; sdf: the listing of C31 on the stream in memory, which every peek leaves as it was |
| C50 | the format as a small decoder on whole inputs (LzmaFormatSpec: range coder, bit programs, symbols, window = all output); each C fragment (bit macros, trees, lengths, distances, copies in the ring buffer) refines its bit program; TryDummy decodes the same symbol as the format and says whether the input suffices; one invariant `INV` relates every state between calls (ring buffer, tempBuf, remainLen, needFlush) to a state of the format |
| C51 | induction on the strings; the environment as pointers to heap blocks that may be freed |
| C52 | induction on the path; C21 for the stream |
| C54 | every layer of compression keeps the weak contracts of C26 (`Tame`, `Seek`, `Firm`, together `openable`) with a bound for its size that depends on the bound of the layer below; induction over the layers, then over the formats, each with C26 and the fact that the input stream survives a provider without entries |
| C55 | `entry_good` (P_EntrySafe): the stream of an entry of an archive of arbitrary bytes is a weakly conforming stream until it fails; so it is `openable` itself (P_ListSafe1) and C54's argument applies to it with a larger bound for its size; the levels of the listing are a chain of providers with at most `k` entries left each, and every push, advance or pop of the stack decreases the number with these digits in base `k+3` (P_ListSafe3) |
| C56 | simulation relations with "at Eof a size is set" added; for classes on BufferedStream the invariant needs only that the position is not negative, which the contract gives, so every such class follows from its own theorem |
| C57 | every access to a static variable is a step of a thread (free monad of reads and writes); with filled tables a program is shown to only read and to compute what M_Base64 computes, so that no step of one thread matters to another; the first use is run to its end from the initial memory |
| C53 | the stream of an entry is a history of calls replayed on its archive reader, so that entries of archives and mail parts have one type; induction over the stack of open archives as in C40, with C49 for each entry |
| C58 | a failed stream never changes (buffered, skipping); mapped: invariant of two states; a file that is there: C21 through the pointer |
| C59 | CpioCutSpec.v, ArCutSpec.v: what is left of a cut archive; induction on the archive, with the quiet input in the state of the entries; a cut member's stream is a SubInputStream that must fail |
| C38 | invariant: fed bytes are a prefix of the input for every schedule |

## Testing the theorems against wrong programs

`seeded/LOG.jsonl` records edits of the models (one realistic bug each), the theorems whose proofs break, and
what was tightened.  The edits are applied in a scratch copy; a lemma whose proof breaks is admitted
there and the build goes on, and the property theorems that depend on broken lemmas are reported.
