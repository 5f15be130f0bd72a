{"id": "C01", "title": "In-memory stream obeys the documented stream contract", "statement": "For a StringInputStream/StringReader over any data, every sequence of read/skip/reset calls with documented arguments returns exactly the data the StreamBase documentation promises: read hands out the content at the current position, at least min unless the end is reached, never more than max when max>=min, -1 exactly when the end was already reached, position() equals the number of items consumed, reset to any position inside the last read segment succeeds exactly, size() is the data length, and status() is never Error.", "quantifier": "all contents, all finite sequences of read(min,max)/skip(n)/reset(p) with arguments in the documented domain", "why_tests_cant": "the number of call histories and argument combinations is infinite; unit tests exercise a few fixed scripts", "anchors": ["include/strigi/streambase.h:StreamBase::read", "include/strigi/stringstream.h:StringStream::read", "include/strigi/stringstream.h:StringStream::skip", "include/strigi/stringstream.h:StringStream::reset"]}
{"id": "C02", "title": "Buffered streams deliver the source unaltered", "statement": "Any stream built on BufferedStream whose fillBuffer hands out successive pieces of some content obeys the StreamBase contract for that content under every call history: no item is lost, duplicated, reordered or invented by buffering, growth, compaction or reset, and no call reads or writes outside the buffer, fails an assertion or loops forever.", "quantifier": "all contents, all ways the source splits them into chunks, all finite histories of read/skip/reset", "why_tests_cant": "the behaviour depends on the product of chunking, buffer growth/compaction and request sizes, which is unbounded", "anchors": ["include/strigi/bufferedstream.h:BufferedStream::read", "include/strigi/bufferedstream.h:BufferedStream::writeToBuffer", "include/strigi/streambuffer.h:StreamBuffer::makeSpace", "include/strigi/streambuffer.h:StreamBuffer::read"]}
{"id": "C03", "title": "A pointer obtained from a buffered read stays valid across reset into it", "statement": "After BufferedStream::read returned a segment, reset to any position inside that segment succeeds (returns that position), leaves the memory behind the handed out pointer untouched, and a following read returns again the same items.", "quantifier": "all buffered streams, all reads, all positions inside the returned segment", "why_tests_cant": "depends on the internal buffer layout after arbitrary earlier calls", "anchors": ["include/strigi/bufferedstream.h:BufferedStream::reset", "include/strigi/streambase.h:StreamBase::reset"]}
{"id": "C04", "title": "Buffered stream status and size bookkeeping", "statement": "On a BufferedStream whose size is not declared in advance, size() is -1 until the end is reached and equals position() (the total number of items) whenever status() is Eof; after status() becomes Error each later read and reset returns -2, hands out no data and changes nothing; if a size was declared and the source delivers more, the stream reports Error instead of handing out items past the declared size.", "quantifier": "all sources, all declared sizes > 0, all call histories", "why_tests_cant": "needs an invariant over every reachable state", "anchors": ["include/strigi/bufferedstream.h:BufferedStream::read", "include/strigi/bufferedstream.h:BufferedStream::reset"]}
{"id": "C05", "title": "Buffer growth never overflows or loses unread data", "statement": "StreamBuffer::makeSpace(n) always returns at least n free places, keeps all unread items in order, keeps 0<=offset, offset+avail<=size, and performs no signed overflow as long as no single request exceeds 2^30 items.", "quantifier": "all buffer states, all requests", "why_tests_cant": "overflow and aliasing only show up for rare combinations of size, offset and fill level", "anchors": ["include/strigi/streambuffer.h:StreamBuffer::makeSpace", "include/strigi/streambuffer.h:StreamBuffer::setSize"]}
{"id": "C06", "title": "SubInputStream shows exactly a slice of its parent", "statement": "A SubInputStream created at parent position o with size n obeys the StreamBase contract for exactly the items [o,o+n) of the parent (to the parent's end when n is -1), whatever stream kind the parent is, with position() relative to o, and never consumes parent items past o+n.", "quantifier": "all parents satisfying the contract, all offsets, sizes and call histories", "why_tests_cant": "quantifies over every parent implementation and history", "anchors": ["lib/subinputstream.cpp:SubInputStream::read", "lib/subinputstream.cpp:SubInputStream::skip", "lib/subinputstream.cpp:SubInputStream::reset"]}
{"id": "C07", "title": "Substreams nest", "statement": "A substream of a substream of a stream is the corresponding sub-slice of the outermost content, for any nesting depth.", "quantifier": "all nesting depths, offsets, sizes and histories", "why_tests_cant": "unbounded depth", "anchors": ["lib/subinputstream.cpp:SubInputStream::read"]}
{"id": "C08", "title": "A truncated substream is reported as an error, never as end of stream", "statement": "If the parent ends before the declared size of a SubInputStream, the substream never reports Eof: a reader that reads until read() returns a negative number sees -2 and status Error, and all data delivered before is correct.", "quantifier": "all parents, declared sizes and histories", "why_tests_cant": "truncation can hit at every byte position", "anchors": ["lib/subinputstream.cpp:SubInputStream::read", "lib/subinputstream.cpp:SubInputStream::skip"]}
{"id": "C09", "title": "Default skip equals reading and discarding", "statement": "The inherited StreamBase::skip(n) on a stream obeying the read contract advances the position by exactly min(n, remaining), returns that number, and terminates for every 64 bit n.", "quantifier": "all streams satisfying the read contract, all n, all positions", "why_tests_cant": "loops in 10,000,000 item steps: sizes beyond test range matter", "anchors": ["include/strigi/streambase.h:StreamBase::skip"]}
{"id": "C10", "title": "Draining any contract stream yields the content once", "statement": "Reading a stream that obeys the contract with any sequence of documented (min,max) arguments until -1 is returned terminates and the concatenation of the segments is exactly the content.", "quantifier": "all contents, all sequences of request sizes, all stream implementations covered by the contract", "why_tests_cant": "infinitely many request size sequences", "anchors": ["include/strigi/streambase.h:StreamBase::read"]}
{"id": "C11", "title": "KmpSearcher finds the first occurrence", "statement": "After setQuery(q) with a non-empty q, search(haystack,len) returns the address of the first occurrence of q in the haystack and null iff there is none; it never reads outside the haystack, the query or its tables, and terminates.", "quantifier": "all queries and haystacks over all byte values", "why_tests_cant": "the turbo Boyer-Moore shift tables can be wrong for rare periodic patterns only", "anchors": ["lib/kmpsearcher.cpp:KmpSearcher::setQuery", "lib/kmpsearcher.cpp:KmpSearcher::search", "lib/kmpsearcher.cpp:preBmGs", "lib/kmpsearcher.cpp:suffixes"]}
{"id": "C12", "title": "String terminated substream stops exactly at the first terminator", "statement": "A StringTerminatedSubStream over a parent delivers, for any sequence of forward reads, exactly the parent items before the first occurrence of the terminator after the starting position (all remaining items if there is none), also when the terminator straddles read boundaries, and when the end was found the parent is positioned directly behind the terminator.", "quantifier": "all parent contents, terminators and read sizes", "why_tests_cant": "terminator straddling any chunk boundary combination", "anchors": ["lib/stringterminatedsubstream.cpp:StringTerminatedSubStream::read", "lib/stringterminatedsubstream.cpp:StringTerminatedSubStream::reset"]}
{"id": "C13", "title": "Base64 decoding inverts encoding", "statement": "Base64InputStream::decode applied to the standard base64 encoding (with padding) of any non-empty byte string returns that byte string; applied to any other non-empty text it returns the decoded data when the text is well formed (groups of four alphabet characters, correct padding) and the empty string otherwise, never reading outside the text.", "quantifier": "all byte strings and all texts", "why_tests_cant": "infinite input space", "anchors": ["lib/base64inputstream.cpp:Base64InputStream::decode"]}
{"id": "C14", "title": "Base64 streaming is independent of chunking", "statement": "Reading a Base64InputStream yields the decoding of the whole encoded input, whatever block sizes the encoded stream returns and whatever block sizes the consumer asks for; line breaks and other characters outside the alphabet do not change the result; on well formed padded input it equals the one-shot decode.", "quantifier": "all encoded inputs, all chunkings on both sides", "why_tests_cant": "the decoder state (bits, nleft, char_count) is carried across arbitrary boundaries", "anchors": ["lib/base64inputstream.cpp:Base64InputStream::Private::fillBuffer", "lib/base64inputstream.cpp:Base64InputStream::Private::moreData"]}
{"id": "C15", "title": "UTF-8 checker decides its byte grammar", "statement": "checkUtf8(p,n) returns true exactly for byte strings that are concatenations of well-formed units of the accepted grammar (printable ASCII plus tab/LF/CR, 2-byte C2..DF, 3-byte E0..EF excluding surrogates and U+FFFE/FFFF, 4-byte F0..F4, each followed by the right number of continuation bytes); every string of Unicode scalar values in that set encoded as UTF-8 is accepted, and no string with a surrogate, stray continuation byte or truncated sequence is.", "quantifier": "all byte strings", "why_tests_cant": "infinite input space", "anchors": ["lib/textutils.cpp:checkUtf8"]}
{"id": "C16", "title": "Incremental UTF-8 check agrees with the whole-string check", "statement": "checkUtf8(p,n,nb) returns null exactly when the bool version accepts (nb is then 0). Otherwise it returns a position inside the text: with nb>0 everything before the position is valid and the rest is the beginning of one character of which nb bytes are missing (so a text can be checked in pieces by keeping the bytes from that position on); with nb=0 everything before the position is valid text plus at most a started character, and no continuation of the text up to and including the byte at the position is valid.", "quantifier": "all byte strings and all continuations", "why_tests_cant": "quantifies over all continuations of all strings", "anchors": ["lib/textutils.cpp:checkUtf8"]}
{"id": "C17", "title": "convertNewLines replaces exactly the CR and LF of a text by spaces", "statement": "On valid UTF-8 text convertNewLines replaces every CR and LF by a space and changes nothing else; on any bytes it keeps the length, changes at most CR and LF bytes, and is idempotent.", "quantifier": "all byte strings", "why_tests_cant": "infinite input space", "anchors": ["lib/textutils.cpp:convertNewLines"]}
{"id": "C18", "title": "Endian readers are exact", "statement": "readLittleEndian*/readBigEndian* on a byte buffer return the integer whose base-256 digits are the bytes in the stated order, on hosts of both byte orders, and signed variants the two's complement value.", "quantifier": "all byte values", "why_tests_cant": "2^64 inputs; depends on the host byte order macro", "anchors": ["include/strigi/textutils.h:readLittleEndianInt64", "include/strigi/textutils.h:readBigEndianInt64", "lib/textutils.cpp:swap"]}
{"id": "C19", "title": "MS-DOS time stamps decode to the encoded calendar fields", "statement": "dos2unixtime of a DOS date/time word yields the broken-down time whose fields are the bit fields of the word (year since 1980, month, day, hour, minute, two-second units).", "quantifier": "all 32 bit words", "why_tests_cant": "4 billion inputs; tests use a few dates", "anchors": ["lib/dostime.cpp:dos2unixtime"]}
{"id": "C20", "title": "Data event streams report every byte exactly once in order", "statement": "Whatever sequence of read/skip/reset is performed on a DataEventInputStream, the data handler has at any time been given exactly a prefix of the input content, in order and without repetition, covering the furthest position reached; handleEnd is called at most once and only after the complete content was handed over, and the stream itself obeys the StreamBase contract.", "quantifier": "all inputs, all histories", "why_tests_cant": "resets and skips in every order", "anchors": ["lib/dataeventinputstream.cpp:DataEventInputStream::read", "lib/dataeventinputstream.cpp:DataEventInputStream::skip", "lib/dataeventinputstream.cpp:DataEventInputStream::reset"]}
{"id": "C21", "title": "File streams deliver the file", "statement": "FileInputStream, MMapFileInputStream, SkippingFileInputStream and SkippingFileInputStream2 on a file that does not change obey the StreamBase contract for the bytes of the file; empty files give end of stream and not an error.", "quantifier": "all file contents, all histories", "why_tests_cant": "all sizes and seek/skip histories", "anchors": ["lib/fileinputstream.cpp", "lib/mmapfileinputstream.cpp", "lib/skippingfileinputstream.cpp", "lib/skippingfileinputstream2.cpp", "lib/skippingbufferedstream.h"]}
{"id": "C22", "title": "ar archives: every member is listed with its data", "statement": "Iterating a well-formed ar archive with ArInputStream yields the members in order with their names, sizes and exact data, whatever the consumer does with each member stream before asking for the next one.", "quantifier": "all well-formed archives, all consumer behaviours between nextEntry calls", "why_tests_cant": "unbounded archives and interleavings of entry reads with iteration", "anchors": ["lib/arinputstream.cpp:ArInputStream::nextEntry", "lib/arinputstream.cpp:ArInputStream::readHeader"]}
{"id": "C23", "title": "cpio archives: every member is listed with its data", "statement": "Iterating a well-formed newc cpio archive with CpioInputStream yields all members before TRAILER!!! in order with names, sizes, mtimes and exact data, whatever the consumer does with the member streams.", "quantifier": "all well-formed archives, all consumer behaviours", "why_tests_cant": "unbounded archives and interleavings", "anchors": ["lib/cpioinputstream.cpp:CpioInputStream::nextEntry", "lib/cpioinputstream.cpp:CpioInputStream::readHeader"]}
{"id": "C24", "title": "tar archives: every member is listed with its data", "statement": "Iterating a well-formed tar archive (including GNU long names) with TarInputStream yields the members in order with names, sizes, mtimes and exact data, whatever the consumer does with the member streams.", "quantifier": "all well-formed archives, all consumer behaviours", "why_tests_cant": "unbounded archives and interleavings", "anchors": ["lib/tarinputstream.cpp:TarInputStream::nextEntry", "lib/tarinputstream.cpp:TarInputStream::parseHeader", "lib/tarinputstream.cpp:TarInputStream::readLongLink"]}
{"id": "C25", "title": "zip archives: stored and deflated members are listed with their data", "statement": "Iterating a zip archive that has at least one member, each stored, deflated with known sizes, or deflated in streaming mode (sizes in a data descriptor), with ZipInputStream yields the members in order with names, sizes (-1 in streaming mode), times, types and exact uncompressed data, whatever the consumer does with the member streams, and ends with Eof at the central directory.", "quantifier": "all well-formed archives, all consumer behaviours", "why_tests_cant": "unbounded archives and interleavings", "anchors": ["lib/zipinputstream.cpp:ZipInputStream::nextEntry", "lib/zipinputstream.cpp:ZipInputStream::readHeader"]}
{"id": "C26", "title": "Archive iteration always terminates", "statement": "On arbitrary (also malicious) input bytes, repeatedly calling nextEntry on ar, cpio, tar, zip, sdf, mail, rpm and ole streams reaches a null result after finitely many calls, and every individual call returns.", "quantifier": "all byte strings", "why_tests_cant": "non-termination on crafted input cannot be excluded by sampling", "anchors": ["lib/arinputstream.cpp", "lib/cpioinputstream.cpp", "lib/tarinputstream.cpp", "lib/zipinputstream.cpp", "lib/oleinputstream.cpp"]}
{"id": "C27", "title": "Archive header parsers never leave their buffers", "statement": "For arbitrary header bytes the header parsers of ar, cpio, tar, zip, rpm and ole only access bytes that were returned by read on the underlying stream and never request a negative or overflowing amount.", "quantifier": "all byte strings", "why_tests_cant": "memory errors on crafted input", "anchors": ["lib/arinputstream.cpp:readHeader", "lib/cpioinputstream.cpp:readHeader", "lib/tarinputstream.cpp:parseHeader", "lib/zipinputstream.cpp:readHeader", "lib/rpminputstream.cpp", "lib/oleinputstream.cpp"]}
{"id": "C28", "title": "OLE sector chains terminate and stay in range", "statement": "Opening any byte string as OLE file and listing it returns: following sector chains visits each block at most once, so every entry stream ends after at most file size bytes, the listing ends, and no access is made outside the mapped file. A stream that does not start as an OLE file has status Error and no entries.", "quantifier": "all byte strings presented as OLE file", "why_tests_cant": "cyclic or out-of-range allocation tables are adversarial inputs", "anchors": ["lib/oleinputstream.cpp:OleInputStream::Private::nextBlock", "lib/oleinputstream.cpp:OleEntryStream::fillBuffer", "lib/oleinputstream.cpp:OleInputStream::Private::Private"]}
{"id": "C29", "title": "Decompressing streams leave the parent right behind the compressed data", "statement": "GZipInputStream and BZ2InputStream deliver exactly the decompressor's output for the bytes of the parent, independent of the chunk sizes of the parent and consumer, and once the end of the compressed data was reached the parent is positioned at the first byte after it. Data that is damaged or cut off never ends in Eof. (LZMAInputStream: C48.)", "quantifier": "all inputs, chunkings and histories of calls, for any decompressor obeying the zlib-style stepwise interface", "why_tests_cant": "chunk boundary combinations are unbounded", "anchors": ["lib/gzipinputstream.cpp", "lib/bz2inputstream.cpp"]}
{"id": "C30", "title": "Character decoding is independent of chunking", "statement": "InputStreamReader and EncodingInputStream keep the stream contract with exactly the conversion of the complete input as content, however multi-byte characters are split over reads of the input, the 262 byte buffer and the requests. If the input contains an invalid sequence or ends within a character, only the conversion of what precedes it is delivered, every call returns, and no call reports Eof. An unknown encoding gives status Error.", "quantifier": "all inputs, all encodings (with or without shift states), all chunkings of the input, all histories of calls", "why_tests_cant": "sequences may be split at every position", "anchors": ["lib/inputstreamreader.cpp InputStreamReader::decode fillBuffer", "lib/encodinginputstream.cpp EncodingInputStream"]}
{"id": "C31", "title": "SDF files are split at every record delimiter", "statement": "Iterating an SDF stream yields, in order, as entries Molecule1, Molecule2, ... exactly the records that are ended by the delimiter $$$$, each with exactly its bytes, and then ends with status Eof.", "quantifier": "all inputs and all uses of the entry streams", "why_tests_cant": "delimiters may straddle any buffer boundary", "anchors": ["lib/sdfinputstream.cpp:SdfInputStream::nextEntry"]}
{"id": "C32", "title": "Quoted-printable header decoding", "statement": "Decoding of RFC 2047 encoded words (Q and B) in mail headers inverts the encoding for every byte string, leaves plain text untouched and never reads outside the header value.", "quantifier": "all byte strings", "why_tests_cant": "infinite input space, escapes at the end of input", "anchors": ["lib/mailinputstream.cpp:decodeQuotedPrintable", "lib/mailinputstream.cpp:DecodedHeader::decodedHeaderValue"]}
{"id": "C33", "title": "Archive entry cache lookup returns what was stored", "statement": "After storing directory listings in the ArchiveEntryCache, findEntry(url) returns the entry that was added under exactly that path below the longest cached root that is a prefix of the url, and null for all other paths.", "quantifier": "all sets of entries and urls", "why_tests_cant": "all tree shapes and insertion orders", "anchors": ["lib/archiveentrycache.cpp:ArchiveEntryCache::findEntry", "lib/archiveentrycache.cpp:ArchiveEntryCache::findRootEntry", "lib/listinginprogress.cpp:ListingInProgress::addEntry"]}
{"id": "C34", "title": "Format detection is decided by the magic and has no side effect", "statement": "Each checkHeader accepts exactly the documented magic of its format, looks only at the given bytes, the first provider whose check accepts is used, and the input is handed over at its start position.", "quantifier": "all header byte strings of every length", "why_tests_cant": "all byte strings of all lengths", "anchors": ["lib/substreamproviderprovider.cpp", "lib/arinputstream.cpp:checkHeader", "lib/cpioinputstream.cpp:checkHeader", "lib/tarinputstream.cpp:checkHeader", "lib/zipinputstream.cpp:checkHeader", "lib/rpminputstream.cpp:checkHeader", "lib/oleinputstream.cpp:checkHeader", "lib/gzipinputstream.cpp:checkHeader", "lib/bz2inputstream.cpp:checkHeader", "lib/sdfinputstream.cpp:checkHeader"]}
{"id": "C35", "title": "Copying a DirLister is safe", "statement": "Copies of a DirLister may be used and destroyed independently: the shared listing is released exactly once, after the last copy is gone, and all copies refer to the same listing.", "quantifier": "all sequences of construct/copy/assign/destroy", "why_tests_cant": "all lifetimes and copy patterns", "anchors": ["lib/archivereader.cpp:ArchiveReader::DirLister"]}
{"id": "C36", "title": "Signature stream is transparent", "statement": "A SignatureInputStream returns for every call exactly what its input returns.", "quantifier": "all inputs and histories", "why_tests_cant": "all histories", "anchors": ["lib/signatureinputstream.cpp"]}
{"id": "C37", "title": "RPM payload is found and its members listed", "statement": "For a well-formed rpm (signature and header not empty) the decompressor for the payload starts directly behind lead, signature (padded to 8) and header, for all index counts and store sizes and for gzip, bzip2 and LZMA payloads, and the rpm stream lists exactly the members of the cpio archive inside.", "quantifier": "all rpm files, all inputs that keep the stream contract, all uses of the entries, all decompression libraries that keep their contract", "why_tests_cant": "arithmetic over 32 bit header fields", "anchors": ["lib/rpminputstream.cpp"]}
{"id": "C38", "title": "Process stream feeds the child exactly the input", "statement": "ProcessInputStream writes to the child process exactly the bytes of its input, each once and in order, closes the child's standard input behind them, and delivers the child's output for the complete input, for all schedules of partial writes and reads.", "quantifier": "all inputs and all pipe schedules", "why_tests_cant": "pipe buffering schedules are outside of test control", "anchors": ["lib/processinputstream.cpp:ProcessInputStream::writeToPipe"]}
{"id": "C39", "title": "Skipping buffered streams keep skip and read coherent", "statement": "After any sequence of skip, read and reset on a SkippingBufferedStream the items returned by read are those at position() in the source.", "quantifier": "all histories", "why_tests_cant": "needs an invariant over all reachable buffer states", "anchors": ["lib/skippingbufferedstream.h"]}
{"id": "C40", "title": "Listing visits every nested entry exactly once", "statement": "Listing an archive with everything nested in it terminates after one step per entry, never crashes, and leaves in the cache exactly the entries of the archive and of the archives inside it, each once, under the entry of its own archive, with entries of unknown size given the size found by reading them.", "quantifier": "all archives, all nestings", "why_tests_cant": "unbounded nesting and numbers of entries", "anchors": ["lib/listinginprogress.cpp:ListingInProgress::nextEntry", "lib/listinginprogress.cpp:addEntry"]}
{"id": "C41", "title": "OLE listing", "statement": "Listing a well-formed OLE compound file announces exactly the non-empty streams of its directory, in directory order, each with its name and size; reading an entry, under any history of calls, gives the bytes stored in its chain of sectors or small blocks; the listing ends with Eof.", "quantifier": "all well-formed OLE files, machine byte orders, conforming inputs and histories of calls on the entries", "why_tests_cant": "unbounded number of files, chain layouts and call histories", "anchors": ["lib/oleinputstream.cpp:OleInputStream::nextEntry", "lib/oleinputstream.cpp:OleInputStream::Private::readEntryInfo", "lib/oleinputstream.cpp:OleEntryStream::fillBuffer", "lib/oleinputstream.cpp:OleInputStream::Private::nextSmallBlock"]}
{"id": "C42", "title": "Directory listings of ArchiveReader", "statement": "A DirLister obtained from ArchiveReader::dirEntries(url) returns no name twice and only entries directly below url in the archive that url names or goes through; once nextEntry has returned false it has returned exactly all of them (nothing if there is no archive), however the calls on it are interleaved with other listers and with stat, isArchive, canHandle and openStream on the same reader; no such program crashes or hangs.", "quantifier": "all file systems whose archives nest at most nine deep and do not repeat paths, all programs over the ArchiveReader API", "why_tests_cant": "unbounded number of archives and interleavings of calls", "anchors": ["lib/archivereader.cpp:ArchiveReader::dirEntries", "lib/archivereader.cpp:ArchiveReader::DirLister::Private::nextEntry", "lib/listinginprogress.cpp:ListingInProgress::nextEntry", "lib/archivereader.cpp:ArchiveReader::ArchiveReaderPrivate::findListingInProgress"]}
{"id": "C43", "title": "Opening members by url", "statement": "ArchiveReader::openStream(url) opens the file url if there is one; otherwise, if url is the path of an archive file followed by the path of a member (through any number of nested archives), it opens exactly that member; if there is no such member it returns null.", "quantifier": "all file systems, urls and nested archives", "why_tests_cant": "unbounded number of names, nestings and urls", "anchors": ["lib/archivereader.cpp:ArchiveReader::openStream", "lib/archivereader.cpp:ArchiveReader::ArchiveReaderPrivate::positionedProvider", "lib/archivereader.cpp:ArchiveReader::ArchiveReaderPrivate::cullName"]}
{"id": "C44", "title": "stat, canHandle and isArchive", "statement": "In every program, ArchiveReader::stat(url) gives what the opener says about a file (with type File|Dir for an archive), what the listing of the archive says about an entry of an archive at any depth, and fails for everything else, independent of what was listed before; canHandle(url) is true exactly if url names or goes through an archive; isArchive(url) is true exactly for archives.", "quantifier": "all file systems and programs over the ArchiveReader API", "why_tests_cant": "unbounded number of archives and histories of calls (cache and listings in progress)", "anchors": ["lib/archivereader.cpp:ArchiveReader::stat", "lib/archivereader.cpp:ArchiveReader::ArchiveReaderPrivate::localStat", "lib/archivereader.cpp:ArchiveReader::canHandle", "lib/archivereader.cpp:ArchiveReader::isArchive"]}
{"id": "C45", "title": "Entries of a mail message", "statement": "Iterating a MailInputStream over a message lists exactly its parts, in order and through nested multiparts: each nextEntry() gives the name of the part (filename of Content-Disposition, else name of Content-Type, else its number), the stream of the part has the (base64-decoded) content under every history of calls, reading or not reading a part does not change the following ones, and at the end nextEntry() returns null and status() is Eof. A message without parts has one entry, body, with its text.", "quantifier": "all well-formed messages of any nesting, all conforming input streams, all histories of calls on the entry streams", "why_tests_cant": "unbounded number, nesting and content of parts, and of ways to consume them", "anchors": ["lib/mailinputstream.cpp:MailInputStream::nextEntry", "lib/mailinputstream.cpp:MailInputStream::Private::scanBody", "lib/mailinputstream.cpp:MailInputStream::Private::handleBodyLine", "lib/mailinputstream.cpp:MailInputStream::Private::readHeaderLine"]}
{"id": "C46", "title": "Header fields of a mail message", "statement": "After construction of a MailInputStream, subject(), to(), from(), cc(), bcc(), messageid(), inreplyto() and references() return the decoded value of the last header of that name (names in any case, leading white space dropped, folded lines joined), or an empty string if there is none; contentType() returns the undecoded value.", "quantifier": "all messages with well-formed headers, all conforming input streams", "why_tests_cant": "unbounded number, order, length and spelling of headers", "anchors": ["lib/mailinputstream.cpp:MailInputStream::Private::handleHeaderLine", "lib/mailinputstream.cpp:MailInputStream::Private::readHeader", "lib/mailinputstream.cpp:MailInputStream::Private::value"]}
{"id": "C47", "title": "A compressing stream delivers exactly the compressed form of its input", "statement": "Reading a GZipCompressInputStream (with any mix of read, skip and reset) delivers exactly the compressed form of what remained in its input, whatever the sizes in which the input is handed over or the output is asked for; it ends only when the input has been read to its end; errors of the input are reported as Error, not as the end; decompressing the stream gives the original bytes back. An error of the compression library is reported as Error (false at the final call: the stream then ends normally with truncated data).", "quantifier": "all input streams keeping the stream contract, all positions, all chunkings, all histories of calls, all compressors keeping zlib's documented contract", "why_tests_cant": "The interplay of partial reads, partial flushes and buffer sizes has unboundedly many schedules; a test sees a few", "anchors": ["lib/gzipcompressstream.cpp:27-135 GZipCompressInputStream", "lib/gzipcompressstream.h"]}
{"id": "C48", "title": "LZMA streams deliver exactly the decompressed data", "statement": "An LZMAInputStream on a .lzma file delivers exactly the original data and announces its size: when the header gives the size (false if the data has no end mark, nothing follows it, and the output buffer gets full within the last match: the code then reports Error), and when the size is unknown and the data ends with an end mark. On truncated or damaged data every call returns, no more than the announced size is delivered, and the end is never reported before everything decodable was delivered. Input without an accepted header is refused with status Error.", "quantifier": "all inputs, all input streams keeping the contract, all chunkings, all buffer sizes, all histories of read/skip/reset", "why_tests_cant": "how decoder output, input chunks and buffer sizes interleave is unbounded; the failing case needs a match that straddles a buffer boundary at the very end", "anchors": ["lib/lzmainputstream.cpp:46-171 LZMAInputStream", "lib/lzma/LzmaDec.c", "include/strigi/bufferedstream.h:104-194"]}
{"id": "C49", "title": "Archives are found behind layers of compression", "statement": "When the archive reader opens a stream, up to 33 layers of gzip, bzip2 and lzma compression (with anything behind the compressed data of a layer) are taken off, and if what is inside is a mail, rpm, ar, zip or tar archive with at least one entry, its first entry is returned and all entries are listed as from the uncompressed archive; if it looks like none of the known formats, it is reported to be no archive, also if it is empty. This does not depend on the order in which the formats are tried. (False if the beginning looks like two formats: a tar archive of 7 bit text whose first name contains a colon is listed as a mail or as a tar archive, depending on the addresses of functions.)", "quantifier": "all archives, all nestings of at most 33 layers, all compression libraries keeping the contract, all orders of the formats, all input streams that keep the contract and hand out again what they handed out before (all streams of the library do)", "why_tests_cant": "nestings, chunk sizes of the decompressors and the order of the map (function addresses) are not under the control of a test", "anchors": ["lib/listinginprogress.cpp:subStreamProvider", "lib/archivereader.cpp:ArchiveReader::ArchiveReaderPrivate"]}
{"id": "C50", "title": "The bundled LZMA decoder decodes the LZMA format, safely and in any pieces", "statement": "LzmaDec_DecodeToBuf on any bytes, in any pieces, with any output sizes: every call returns and neither reads nor writes outside of its arrays nor uses memory that was never written; it consumes no more than it is given and writes no more than asked for; what was written is always a beginning of what the format says the consumed bytes decode to, so it does not depend on how input and output were divided into calls. The statuses mean what they are documented to mean (end mark seen; input exhausted and nothing more can be decoded from it; output full; possibly finished without mark), an error is only reported if the data is wrong, or if the caller said that the data ends here and it does not. Complete data with an end mark is decoded completely, as is data without an end mark if its size is asked for. The properties bytes are accepted exactly if they encode legal parameters.", "quantifier": "all input bytes, all parameters (lc, lp, pb, dictionary size), all sequences of calls with all input pieces and output sizes and both finish modes", "why_tests_cant": "the decoder is a state machine with 2^many states (ring buffer, range coder, 20 byte temporary buffer, pending match); attackers choose the input, and the pieces depend on buffer sizes and streams underneath", "anchors": ["lib/lzma/LzmaDec.c:LzmaDec_DecodeToBuf", "lib/lzma/LzmaDec.c:LzmaDec_DecodeToDic", "lib/lzma/LzmaDec.c:LzmaDec_TryDummy", "lib/lzma/LzmaDec.c:LzmaProps_Decode", "lib/lzma/LzmaDec.h"]}
{"id": "C51", "title": "The replacements for C library functions behave like the originals", "statement": "On systems without them, the library's own strcasecmp and strncasecmp order strings without regard to case and read no byte behind their ends, strcasestr returns the first occurrence without regard to case or NULL if there is none, isblank is true for exactly space and tab, and setenv sets exactly the given variable (or leaves it alone if it exists and overwrite is 0), so that getenv returns its value afterwards. (False in the code: strncasecmp with length 0 is undefined, strcasestr is case sensitive where strlwr is missing, isblank accepts newlines, and setenv leaves a pointer to freed memory in the environment where putenv does not copy.)", "quantifier": "all strings and all contents of the memory behind them, all lengths, all environments", "why_tests_cant": "strings are unbounded, out of bounds reads and use after free usually go unnoticed in a test", "anchors": ["lib/compat.cpp:30-134"]}
{"id": "C52", "title": "The file opener reports and opens what is in the file system", "statement": "FileStreamOpener::stat returns 0 exactly if the file exists, and then gives its type, size and modification time and, as name, the last component of the path; otherwise it returns -1 and leaves the entry alone. openStream returns NULL exactly if the file cannot be opened, and otherwise a stream that keeps the contract of streams with exactly the bytes of the file, failing only if the operating system reports read errors; also for empty files and files whose reported size is 0 or unknown. (False for urls with NUL bytes: the name is not that of the file.)", "quantifier": "all file systems, all urls, all contents, all patterns of read errors, all histories of calls on the opened stream", "why_tests_cant": "paths, contents, I/O errors and call histories are unbounded", "anchors": ["lib/filestreamopener.cpp:36-69", "lib/fileinputstream.cpp:35-117"]}
{"id": "C53", "title": "The listing of a file is the tree of archives its bytes hold", "statement": "If the bytes of a file are, by the file formats, an archive (tar, ar, zip, rpm or mail) in layers of compression, whose entries may again be such archives, then listing the file with the library's own readers ends and gives exactly that tree: every entry of every archive under its path, with its announced size and time, entries that are archives marked as directories, plain entries without children; sizes that are not announced are found by reading.", "quantifier": "all files, all trees of archives up to 9 levels, all compression layers, all orders of the format map, all streams that keep the stream contract", "why_tests_cant": "contents, nesting and formats combine without bound", "anchors": ["lib/listinginprogress.cpp:80-272", "lib/archivereader.cpp:174-190", "lib/arinputstream.cpp:29-139", "lib/tarinputstream.cpp:36-226", "lib/zipinputstream.cpp:33-254", "lib/mailinputstream.cpp:210-684"]}
{"id": "C54", "title": "Opening a file ends whatever its bytes are", "statement": "For every sequence of bytes, the search for an archive in it (removing layers of gzip, bzip2 and LZMA, also those that decompress to themselves or for ever, and trying the formats in any order) returns; and if an archive is found, going through its entries ends: nextEntry() returns null after finitely many entries, whatever the consumer does with them. (Undefined behaviour, which the formats do not exclude, is the matter of C27.)", "quantifier": "all byte sequences, all sources that deliver them piecewise and may fail, all orders of the format map, all decompression libraries with bounded expansion, all consumers", "why_tests_cant": "hostile files are unbounded in number, nesting and size", "anchors": ["lib/listinginprogress.cpp:80-158", "lib/archivereader.cpp:174-190", "lib/gzipinputstream.cpp:45-185", "lib/bz2inputstream.cpp:39-170", "lib/lzmainputstream.cpp:46-171"]}
{"id": "C55", "title": "Listing a file ends whatever its bytes are", "statement": "For every sequence of bytes, going through all the files it contains (opening the file, listing the archive found in it, opening every entry as an archive, descending into archives inside of archives and inside of compressed data, reading entries to their end when their size is not announced) takes finitely many steps and returns an entry for the file. No byte sequence makes the listing loop. (Undefined behaviour and failed assertions, which C08, C27 and C40 are about, count as an end.)", "quantifier": "all byte sequences, all sources that deliver them piecewise and may fail, all lists of the formats, all decompression libraries with bounded expansion", "why_tests_cant": "The claim is about every byte sequence at every level of nesting, including truncated, cyclic and self-reproducing files; a test that passes for some files says nothing about the others, and a loop cannot be observed by a test that stops.", "anchors": ["lib/listinginprogress.cpp:80-272", "lib/archivereader.cpp:174-190", "lib/arinputstream.cpp:29-139", "lib/tarinputstream.cpp:36-226", "lib/zipinputstream.cpp:33-254", "lib/sdfinputstream.cpp:82-171", "lib/subinputstream.cpp:28-125"]}
{"id": "C56", "title": "The size is known at the end", "statement": "Whenever status() of a stream is Eof, size() is the number of items of the stream, however the end was reached (read, skip or reset, for the first time or again after going back) and whether or not the size was announced before.", "quantifier": "all streams of the library, all contents, all sources, all histories of documented calls", "why_tests_cant": "The size is set at several places at different moments; whether one of them is missed depends on the combination of chunk sizes, requests, resets and skips that leads to the end.", "anchors": ["include/strigi/streambase.h:89-98", "include/strigi/bufferedstream.h:127-194", "include/strigi/stringstream.h:80-143", "lib/subinputstream.cpp:28-125", "lib/fileinputstream.cpp:49-117", "lib/mmapfileinputstream.cpp:70-106", "lib/skippingfileinputstream.cpp:87-143", "lib/dataeventinputstream.cpp:28-125", "lib/signatureinputstream.cpp:45-79", "lib/lzmainputstream.cpp:46-171"]}
{"id": "C57", "title": "Base64 decoding in several threads", "statement": "After a base64 text has been decoded or a Base64InputStream made once, any number of threads can decode texts and read Base64InputStreams at the same time: in every interleaving each thread gets the result it would get alone, after a number of its own steps that does not depend on the others, and no two threads access a variable in conflict (no data race). Ideally this also holds for the first use.", "quantifier": "all numbers of threads, all texts and streams, all interleavings of their memory accesses", "why_tests_cant": "The library fills shared tables at the first use; whether a thread sees them half filled depends on the schedule, and the bad schedules are rare and cannot be forced by a test.", "anchors": ["lib/base64inputstream.cpp:48-105", "lib/base64inputstream.cpp:107-230", "include/strigi/base64inputstream.h:27-36"]}
{"id": "C58", "title": "Files that cannot be opened or read give errors", "statement": "FileInputStream::open(path, hint) gives, for every hint, a stream with exactly the bytes of the file if the file can be opened. If it cannot (it is missing, unreadable, cannot be mapped, or the path is null) status() is Error at once and stays so, read() and reset() return -2, nothing is handed out and nothing crashes, whatever is called in whatever order. If reading fails midway, the call returns -2, status() is Error, and only bytes of the file have been handed out.", "quantifier": "all paths and file system answers, all hints, all buffer sizes, all patterns of read errors, all histories of calls, also after an error", "why_tests_cant": "read errors and mapping failures are hard to provoke, and may come at every call", "anchors": ["lib/fileinputstream.cpp FileInputStream::open", "lib/mmapfileinputstream.cpp MMapFileInputStream", "lib/skippingfileinputstream.cpp SkippingFileInputStream"]}
{"id": "C59", "title": "Archives that were cut off", "statement": "If a newc cpio archive or an ar archive is cut off anywhere (inside of data, of a header, of a table or of padding), CpioInputStream and ArInputStream list the members whose headers are complete, announced as in the intact archive. Complete members have their contents. The stream of the member that is cut hands out only bytes of that member, and no call on it reports the end of the data: it ends in status Error. Then nextEntry() returns null, and status() is Error, so that a shortened archive is never mistaken for a complete one.", "quantifier": "all well-formed newc cpio and ar archives, all cut points, all preceding data, all conforming inputs without errors of their own, all call histories on the entries", "why_tests_cant": "every byte of every archive is a possible cut point, and each meets every way of reading the entries before it", "anchors": ["lib/cpioinputstream.cpp CpioInputStream::nextEntry", "lib/cpioinputstream.cpp CpioInputStream::readHeader", "lib/arinputstream.cpp ArInputStream::nextEntry", "lib/arinputstream.cpp ArInputStream::readHeader", "lib/subinputstream.cpp SubInputStream"]}
