{
 "claims": [
  {
   "property": "C01",
   "status": "partial",
   "theorems": [
    "C01_string_stream_contract",
    "C01_zero_terminated",
    "C01_reset_negative"
   ],
   "note": "Full contract for all documented calls (0<min<=max, or max<=0), arbitrary data and histories, plus constant size, no Error, exact reset. Missing: 0<max<min (code returns fewer than min, C01_max_below_min_refuted) and skip arguments above INT32_MAX (C01_skip_64bit_refuted): the code violates the documentation there."
  },
  {
   "property": "C02",
   "status": "proved",
   "theorems": [
    "C02_buffered_contract"
   ],
   "note": "For every fillBuffer satisfying SrcOK, every content, every history; single requests up to 2^30."
  },
  {
   "property": "C03",
   "status": "proved",
   "theorems": [
    "C03_segment_survives_reset"
   ],
   "note": ""
  },
  {
   "property": "C04",
   "status": "proved",
   "theorems": [
    "C04_size_undeclared",
    "C04_error_is_final",
    "C04_declared_size"
   ],
   "note": "A declared size larger than the data leaves size()<>position() at Eof: C04_declared_too_large_refuted (outside the claim)."
  },
  {
   "property": "C05",
   "status": "proved",
   "theorems": [
    "C05_makeSpace",
    "C05_bound_sharp"
   ],
   "note": ""
  },
  {
   "property": "C06",
   "status": "partial",
   "theorems": [
    "C06_substream_is_slice",
    "C06_parent_position",
    "C06_buffered_any_size",
    "C06_mapped_any_size"
   ],
   "note": "Any parent: proved for sizes 0..INT32_MAX and for size -1 with a non-empty rest up to INT32_MAX. Substreams of any size (also beyond 4 GiB) on every BufferedStream and on mapped files. False in the code for size -1 on an empty rest (C06_unknown_size_empty_refuted) and size() stays -1 at Eof (C06_unknown_size_at_eof_refuted)."
  },
  {
   "property": "C07",
   "status": "proved",
   "theorems": [
    "C07_nested_slices",
    "C07_nested_is_one_slice"
   ],
   "note": "Any depth."
  },
  {
   "property": "C08",
   "status": "partial",
   "theorems": [
    "C08_truncated_is_error_partial"
   ],
   "note": "read never returns -1 and ends in -2/Error; status() itself can show Eof after a reset to the truncated end (C08_status_after_reset_refuted)."
  },
  {
   "property": "C09",
   "status": "proved",
   "theorems": [
    "C09_default_skip"
   ],
   "note": ""
  },
  {
   "property": "C10",
   "status": "proved",
   "theorems": [
    "C10_drain"
   ],
   "note": ""
  },
  {
   "property": "C11",
   "status": "partial",
   "theorems": [
    "C11_search_partial",
    "C11_no_query"
   ],
   "note": "Always terminates without UB; a hit is an occurrence. Leftmost / null-iff-none for queries of <=7 characters or whose last 3 characters do not recur. False in the code for other queries (C11_misses_occurrence_refuted, C11_not_leftmost_refuted); empty query is UB (C11_empty_query_refuted)."
  },
  {
   "property": "C12",
   "status": "partial",
   "theorems": [
    "C12_before_terminator_partial",
    "C12_end_known_partial"
   ],
   "note": "Content, histories with resets inside the last segment, and the parent position at the end. Needs a terminator on which the search is exact (C11), a parent of at most INT32_MAX bytes, non-negative max. False in the code when the terminator comes first (C12_empty_content_refuted: read returns 0), for negative max (C12_negative_max_refuted), after a rewind and reset to the end (C12_reset_to_end_refuted), size() may stay -1 at Eof (C12_size_at_eof_refuted), and beyond 2 GiB of the parent the terminator is not looked for (C12_far_refuted) and read() at the end leaves status() Ok (C12_far_end_refuted)."
  },
  {
   "property": "C13",
   "status": "partial",
   "theorems": [
    "C13_decode_encode",
    "C13_decode_total"
   ],
   "note": "Complete for non-empty texts. decode of an empty text reads in[-1] (C13_empty_refuted)."
  },
  {
   "property": "C14",
   "status": "proved",
   "theorems": [
    "C14_stream",
    "C14_ignored_characters",
    "C14_agrees_with_decode"
   ],
   "note": "Unpadded incomplete last groups are dropped (C14_unpadded_dropped_refuted); the specification b64decoded says so."
  },
  {
   "property": "C15",
   "status": "proved",
   "theorems": [
    "C15_checkUtf8",
    "C15_accepts_text",
    "C15_rejects_forbidden"
   ],
   "note": "The accepted grammar is larger than RFC 3629 (C15_overlong_refuted): overlong 3/4 byte forms and values up to U+13FFFF pass; the property states the grammar of the code."
  },
  {
   "property": "C16",
   "status": "proved",
   "theorems": [
    "C16_result",
    "C16_agrees",
    "C16_incremental",
    "C16_incremental_valid"
   ],
   "note": "For errors the position is the offending byte, not the first byte of the character (C16_position_of_char_refuted)."
  },
  {
   "property": "C17",
   "status": "proved",
   "theorems": [
    "C17_valid_text",
    "C17_any_bytes"
   ],
   "note": ""
  },
  {
   "property": "C18",
   "status": "partial",
   "theorems": [
    "C18_16",
    "C18_32",
    "C18_64"
   ],
   "note": "All twelve readers for both host byte orders. The unsigned char* overloads of the signed 64 bit readers call the 16 bit function (C18_unsigned_char_int64_refuted). Alignment is not modelled."
  },
  {
   "property": "C19",
   "status": "partial",
   "theorems": [
    "C19_fields_partial"
   ],
   "note": "All fields for hours below 16. The code masks the hour with 0x0f instead of 0x1f: C19_hour_refuted (hour - 16 for every time from 16:00 on). mktime is a parameter."
  },
  {
   "property": "C20",
   "status": "proved",
   "theorems": [
    "C20_data_events",
    "C20_over_string_stream"
   ],
   "note": "Any handler, any honest input (never announces a wrong size, going back does not fail: documented in DataEventSpec.v), any history of documented calls; a forward reset ends the validity of an earlier segment (next_view_fwd). handleEnd is not called when a refused stream is drained with skip (C20_no_end_after_refusal_refuted; not part of the claim)."
  },
  {
   "property": "C21",
   "status": "partial",
   "theorems": [
    "C21_file",
    "C21_mmap_partial",
    "C21_skipping_file_partial",
    "C21_reset_negative"
   ],
   "note": "FileInputStream full contract; mmap for non-empty files (empty: C21_mmap_empty_refuted); SkippingFileInputStream for callers treating 0 as end (C21_skipping_file_end_refuted)."
  },
  {
   "property": "C22",
   "status": "proved",
   "theorems": [
    "C22_ar_lists_members"
   ],
   "note": "Over any input that follows the stream contract (C01, C02, C06 ...), for GNU/SysV archives with sizes and times up to INT32_MAX; the relation ar_archive in ArSpec.v is the format. Every history of documented calls on each entry."
  },
  {
   "property": "C23",
   "status": "proved",
   "theorems": [
    "C23_cpio_lists_members"
   ],
   "note": "newc archives (CpioSpec.v), sizes and times up to INT32_MAX, over any conforming input and any history of calls on the entries. A leading ./ of a name is dropped, as documented in plain_name; types are always File."
  },
  {
   "property": "C24",
   "status": "partial",
   "theorems": [
    "C24_tar_lists_members_partial"
   ],
   "note": "All members with name, size, time, type and data for v7/ustar/GNU archives; Eof at the end when at least three blocks of zeros follow. False in the code: exactly two blocks of zeros end in Error on eager streams (C24_two_zero_blocks_refuted), long names keep their NUL (C24_long_name_refuted), long link targets are taken for names (C24_long_link_target_refuted)."
  },
  {
   "property": "C25",
   "status": "proved",
   "theorems": [
    "C25_zip_lists_members"
   ],
   "note": "Stored, deflated and streamed (bit 3) members, over any conforming input, any inflate library obeying InflateSpec.codec_ok, and any history of calls on the entries; the format is zip_archive in ZipSpec.v. Outside it: an archive without members ends in Error (C25_empty_archive_refuted), other compression methods are treated as stored (C25_other_method_refuted)."
  },
  {
   "property": "C26",
   "status": "partial",
   "theorems": [
    "C26_ar_ends",
    "C26_tar_ends",
    "C26_cpio_ends",
    "C26_zip_ends",
    "C26_rpm_ends",
    "C26_mail_ends",
    "C26_sdf_stream_ends",
    "C26_sdf_ends",
    "C26_ole_ends"
   ],
   "note": "All byte strings, all consumer behaviours (also resets, as long as they do not go beyond an announced size), StringStream and every BufferedStream input, also failing ones; fewer than size + 1 entries and no endless loop. Mail: up to 2 GiB and non-negative max (beyond, C12_far_end_refuted makes the drain loop endless)."
  },
  {
   "property": "C27",
   "status": "partial",
   "theorems": [
    "C27_ar",
    "C27_tar_partial",
    "C27_cpio_partial",
    "C27_zip",
    "C26_sdf_ends",
    "C27_ole_partial"
   ],
   "note": "Proved for all byte strings: ar and zip from memory; tar without GNU long names and cpio with readable headers, also from any BufferedStream; sdf from memory; ole with moderate tables. False in the code otherwise, with witnesses: C27_ar_file_refuted, C27_zip_file_refuted, C27_cpio_size_refuted, C27_cpio_namesize_refuted, C27_cpio_name_refuted, C27_tar_second_header_refuted, C27_tar_empty_name_refuted, C27_reset_beyond_refuted, C37_negative_store_refuted, C28_*_refuted."
  },
  {
   "property": "C28",
   "status": "partial",
   "theorems": [
    "C28_every_file_partial",
    "C28_memory_partial",
    "C28_not_ole"
   ],
   "note": "All byte strings up to 2^31-1 bytes whose header and table entries lie within -4194304..4194301 (so that sector offsets fit in 32 bits), all conforming inputs that announce their size (or whose size is a multiple of 512), all histories of calls; bound: file size + 64 bytes per entry. False outside: 32-bit overflows in the constructor (C28_count_overflow_refuted, C28_negative_count_refuted, C28_directory_overflow_refuted, C28_table_overflow_refuted), out-of-bounds read of a cut directory sector if the input does not know its size (C28_cut_directory_refuted); the first block of a chain can be visited twice (C28_first_block_twice_refuted)."
  },
  {
   "property": "C29",
   "status": "proved",
   "theorems": [
    "C29_intact",
    "C29_corrupt_never_complete",
    "C29_truncated_never_complete",
    "C29_wrong_magic",
    "C29_wrong_magic_bzip2"
   ],
   "note": "GZipInputStream (all three formats) and BZ2InputStream, for every library obeying InflateSpec.codec_ok. LZMAInputStream is C48; it does not give unused input back (C48_parent_position_refuted)."
  },
  {
   "property": "C30",
   "status": "partial",
   "theorems": [
    "C30_valid_partial",
    "C30_invalid_partial",
    "C30_nothing_invented",
    "C30_unknown_encoding",
    "C30_spec_total"
   ],
   "note": "All encodings, also stateful ones (shift states), whose characters have at most 262 bytes and are written as at most one item (wchar_t, so InputStreamReader, or single-byte targets), any iconv that converts complete characters and keeps its state, any conforming input. For EncodingInputStream with multi-byte targets the property is false in the code (C30_multibyte_refuted: E2BIG is taken to mean that all the space was written, so an unwritten byte is handed out; C30_charbuf_overflow_refuted: the 262 byte buffer is overrun). Not modelled: shift sequences written at the end for stateful targets (the code writes none)."
  },
  {
   "property": "C31",
   "status": "partial",
   "theorems": [
    "C31_listing_partial",
    "C31_every_file",
    "C31_one_listing",
    "C31_first_record_partial"
   ],
   "note": "Proved for every file held in memory: the entries are exactly those of the listing of SdfSpec.v, the listing exists and is unique, and its first entry is the first record. False in the code: later records lose leading newlines and one byte (C31_later_records_refuted); a delimiter across two reads is missed (C31_read_boundary_refuted)."
  },
  {
   "property": "C32",
   "status": "partial",
   "theorems": [
    "C32_quoted_printable",
    "C32_quoted_printable_covers",
    "C32_quoted_printable_plain",
    "C32_quoted_printable_total",
    "C32_header_partial",
    "C32_plain",
    "C32_header_total"
   ],
   "note": "All byte strings, all values made of plain text and encoded words, any iconv whose conversions are independent of each other. False in the code: one byte behind the value is read and can matter (C32_overread_refuted, C32_overread_effect_refuted), unfolding drops a character (C32_folding_refuted), white space between encoded words is kept (C32_adjacent_words_refuted), words of unknown method vanish (C32_unknown_method_refuted)."
  },
  {
   "property": "C33",
   "status": "partial",
   "theorems": [
    "C33_findEntry",
    "C33_entry_found_partial",
    "C33_others_null"
   ],
   "note": "C33_findEntry is the exact answer for every listing, root set and url. The claim is false when the entry of a directory comes after files below it (C33_late_directory_refuted): the earlier files are lost."
  },
  {
   "property": "C34",
   "status": "partial",
   "theorems": [
    "C34_magic",
    "C34_lzma",
    "C34_tar",
    "C34_sdf",
    "C34_mail",
    "C34_same_functions",
    "C34_dispatch_partial",
    "C34_empty_input",
    "C34_zip_not_mail"
   ],
   "note": "All eleven checkHeader functions accept exactly the format described in DetectSpec.v and stay inside the given bytes. SubStreamProviderProvider: decision and position, for inputs with at least four bytes; with one to three bytes its trace output reads outside the data (C34_short_input_refuted)."
  },
  {
   "property": "C35",
   "status": "partial",
   "theorems": [
    "C35_lifetime_partial",
    "C35_assigned_lists_same_partial"
   ],
   "note": "All programs that obtain listers from dirEntries, assign between different listers, use and destroy them, with the reader releasing its listings at any time. False in the code for the copy constructor (C35_copy_refuted, C35_use_after_copy_refuted), self assignment of the last holder (C35_self_assign_refuted) and the url of an assigned lister (C35_assigned_url_refuted)."
  },
  {
   "property": "C36",
   "status": "proved",
   "theorems": [
    "C36_transparent",
    "C36_contract"
   ],
   "note": ""
  },
  {
   "property": "C37",
   "status": "proved",
   "theorems": [
    "C37_payload_found",
    "C37_rpm_lists_members"
   ],
   "note": "Over any conforming input; zlib/libbz2 as an arbitrary library satisfying InflateSpec.v, the LZMA decoder as an arbitrary library satisfying LzmaSpec.v (payloads without announced size that end with the end mark, as rpm writes them). Outside the statement: an empty signature is refused (C37_empty_signature_refuted) and a negative store size is undefined behaviour (C37_negative_store_refuted)."
  },
  {
   "property": "C38",
   "status": "partial",
   "theorems": [
    "C38_nothing_invented_partial",
    "C38_filter_partial",
    "C38_buffered_input"
   ],
   "note": "Order, no duplication and no invention hold for every child, input and pipe schedule. Completeness holds for inputs that report the end separately (every buffered stream), children that answer every input and blocking pipes. False otherwise: bytes returned together with Eof are dropped (C38_last_chunk_refuted), the rest of a short write is dropped (C38_short_write_refuted), a child that needs its whole input blocks for ever (C38_waits_for_ever_refuted)."
  },
  {
   "property": "C39",
   "status": "partial",
   "theorems": [
    "C39_skipping_partial",
    "C39_skipping_file_partial"
   ],
   "note": "Any source obeying SrcOK, any history whose resets return to items of the last read. False in the code: a reset after a skip over the buffer yields other data (C39_reset_after_skip_refuted), reset to the end of the segment is ignored (C39_reset_to_end_refuted), errors while skipping are reported as the end (C39_error_as_end_refuted), the file stream skips beyond the end (C39_file_beyond_end_refuted)."
  },
  {
   "property": "C40",
   "status": "partial",
   "theorems": [
    "C40_listing_partial",
    "C40_then_find_partial"
   ],
   "note": "Any archive with at most nine nested levels. With ten levels the stack of ten elements is indexed at position ten (C40_ten_levels_refuted). Which streams are archives and their entries are given (C22-C25, C34)."
  },
  {
   "property": "C41",
   "status": "partial",
   "theorems": [
    "C41_listing_partial",
    "C41_memory_partial"
   ],
   "note": "All well-formed files, with any number of extra table sectors (C41_extra_case: a file of 7 MB with 110 table sectors), over any conforming input that announces its size. Two conditions are needed because the code is wrong without them: small blocks are not numbered beyond the number of sectors (the start of a small stream is compared with the number of sectors, such streams are not listed: C41_small_start_refuted), and the last sector of the file is not an extra table sector (readInt32 refuses the last word of the file: C41_last_sector_refuted). Empty streams are not listed."
  },
  {
   "property": "C42",
   "status": "partial",
   "theorems": [
    "C42_listers",
    "C42_no_crash_partial"
   ],
   "note": "All file systems with unchanging files, archives at most nine levels deep (C40) without repeated paths, one opener; all programs. Crash freedom only for programs that ask every new lister for its first entry at once; otherwise false in the code (C42_unstarted_refuted: null pointer after a second dirEntries has moved the tree to the cache). A file modified after its listing was cached leads to a use after free (C42_modified_refuted)."
  },
  {
   "property": "C43",
   "status": "partial",
   "theorems": [
    "C43_file",
    "C43_nothing",
    "C43_member_partial",
    "C43_only_members_partial"
   ],
   "note": "All file systems, urls and nestings. A member is opened if no name of a file of its archive begins with another one, and nothing else is opened if names end where parts of the url end; without this false in the code (C43_prefix_refuted: strncmp with the length of the entry name opens member f for the url of member fo)."
  },
  {
   "property": "C44",
   "status": "partial",
   "theorems": [
    "C44_stat",
    "C44_canHandle",
    "C44_isArchive_partial"
   ],
   "note": "Same setting as C42. stat and canHandle are exact in every run; isArchive is true for every archive that is a file, but also for all other files and directories and never for archives in archives (C44_isArchive_refuted)."
  },
  {
   "property": "C45",
   "status": "partial",
   "theorems": [
    "C45_listing_partial",
    "C45_single_partial"
   ],
   "note": "All well-formed multipart messages (MailPartsSpec.message: any nesting, CRLF or LF, folded headers, quoted or bare parameters, base64 parts) on every conforming stream, every history of calls on every part; and all messages without parts. Differences to RFC 2046 that the specification takes over from the code, with witnesses: the line break before a delimiter is shown as content (C45_line_break_refuted), the delimiter ends a part in mid-line (C45_mid_line_refuted), the entry body starts with the blank line. Excluded cases, where the listing is wrong: C45_cut_off_refuted, C45_blank_line_refuted, C45_rfc2231_refuted, C45_unclosed_refuted, C45_empty_body_refuted, C45_position_refuted, C45_error_refuted, C45_long_line_refuted."
  },
  {
   "property": "C46",
   "status": "partial",
   "theorems": [
    "C46_fields_partial",
    "C46_decoded_partial"
   ],
   "note": "All messages with well-formed headers on every conforming stream. Headers of the wanted name need 8 characters: shorter ones are ignored (C46_short_header_refuted). The decoding of the values is that of C32."
  },
  {
   "property": "C47",
   "status": "partial",
   "theorems": [
    "C47_compressed",
    "C47_roundtrip",
    "C47_init_fails"
   ],
   "note": "All inputs, chunkings and histories, for every compressor that keeps zlib's contract with an output that does not depend on the chunking (DeflateSpec). The part about errors of the library is false at the final call (C47_finish_error_refuted); zlib does not fail there in practice."
  },
  {
   "property": "C48",
   "status": "partial",
   "theorems": [
    "C48_real_sized_partial",
    "C48_real_marked",
    "C48_real_truncated",
    "C48_real_any_data",
    "C48_sized_partial",
    "C48_marked",
    "C48_truncated",
    "C48_any_data",
    "C48_refused",
    "C48_no_memory"
   ],
   "note": "All inputs and histories. The C48_real theorems are about the stream with the bundled decoder (M_LzmaReal), nothing is assumed of it; the others hold for every decoder that keeps LzmaSpec (real_ok: the bundled one does). With a known size the data is delivered completely if it has an end mark or something follows it; without this false in the code (C48_real_pending_refuted: fillBuffer wants more input although the decoder still has output). Headers of files smaller than their dictionary are not accepted (is_lzma), as the code intends."
  },
  {
   "property": "C49",
   "status": "partial",
   "theorems": [
    "C49_opens_partial",
    "C49_opens_mail_partial",
    "C49_no_archive",
    "C49_streams",
    "C49_opens_sdf_partial"
   ],
   "note": "tar, ar, zip, rpm archives and multipart mails, each in up to 33 layers in any combination, on every conforming repeatable stream, every order of the map; sdf files in memory without compression (C49_opens_sdf_partial). Partial: on other streams sdf files may lose records (C31_read_boundary_refuted), so nothing is proved of their listing; archives whose beginning looks like two formats are listed as one of them depending on function addresses (C49_ambiguous_refuted); lzma layers with the limits of C48."
  },
  {
   "property": "C50",
   "status": "proved",
   "theorems": [
    "C50_call_returns",
    "C50_output_prefix",
    "C50_status",
    "C50_error",
    "C50_marked_decoded",
    "C50_unmarked_decoded",
    "C50_marked_exact",
    "C50_calls_irrelevant",
    "C50_properties"
   ],
   "note": "The bundled LzmaDec.c, all properties bytes, all inputs, all histories of LzmaDec_DecodeToBuf calls (and LzmaDec_Init between them). The format is LzmaFormatSpec.v. real_ok and real_sane connect it with the stream of C48."
  },
  {
   "property": "C51",
   "status": "partial",
   "theorems": [
    "C51_strcasecmp",
    "C51_strncasecmp_partial",
    "C51_strcasestr_partial",
    "C51_isblank_partial",
    "C51_setenv_partial"
   ],
   "note": "All strings, in any memory. Partial because the code is wrong: strncasecmp with length 0 uses uninitialised variables (C51_strncasecmp_refuted), strcasestr without strlwr is case sensitive (C51_strcasestr_refuted), isblank accepts newlines (C51_isblank_refuted), setenv frees what putenv keeps (C51_setenv_refuted). Strings are compared by signed chars, and the locale is C."
  },
  {
   "property": "C52",
   "status": "partial",
   "theorems": [
    "C52_stat_partial",
    "C52_open"
   ],
   "note": "All urls without NUL and all file systems. With a NUL in the url, stat() answers for one file with the name of another (C52_nul_refuted)."
  },
  {
   "property": "C53",
   "status": "partial",
   "theorems": [
    "C53_listing_partial"
   ],
   "note": "All files and trees of tar, ar, zip, rpm archives and mails in layers of compression, read by the library's own readers, all orders of the format map. Partial: no sdf files; within archives no archive whose outermost layer is lzma; mail parts that are not encoded are plain data; at most 9 levels (C40); files whose beginning looks like two formats are excluded (C49_ambiguous_refuted); a size that is not announced is the true one or -1."
  },
  {
   "property": "C54",
   "status": "partial",
   "theorems": [
    "C54_open_ends_partial",
    "C54_unwrap_ends",
    "C54_open_ends_any_size"
   ],
   "note": "All bytes, all sources, all orders of the format map. Decompressors consume and write at most what is offered and expand by a bounded factor. Partial: for all six formats the file and the data of every layer are at most INT32_MAX bytes (the limit of C26_mail_ends), so the decompressors are assumed to stop there (capped); without any limit on sizes for ar, zip, tar and sdf, and for the removal of the layers alone. Entries of the archive that is found are not opened themselves."
  },
  {
   "property": "C55",
   "status": "partial",
   "theorems": [
    "C55_list_ends_partial"
   ],
   "note": "All bytes, all sizes, all sources, every list of the formats ar, zip, tar, sdf. Partial: mail and rpm are not in the list of formats (an entry stream without size, or a zip member that announces 2^31 bytes or more, may not meet what they need of their input), the number of steps is bounded by a number that exists and is not given, and undefined behaviour and failed assertions count as an end; calls of a format on an entry stream outside of the documented arguments are undefined behaviour in the model."
  },
  {
   "property": "C56",
   "status": "partial",
   "theorems": [
    "C56_string_stream",
    "C56_buffered",
    "C56_buffered_any",
    "C56_file",
    "C56_mapped_file",
    "C56_skipping_file_partial",
    "C56_substream",
    "C56_data_events",
    "C56_signature",
    "C56_base64",
    "C56_decompressed",
    "C56_compressing",
    "C56_decoding",
    "C56_lzma",
    "C12_end_known_partial"
   ],
   "note": "Proved for StringStream, every class built on BufferedStream (also over sources that fail), file streams, substreams of given size inside their parent, the decoding, decompressing, compressing and inspecting streams, and streams ended by a string that comes (C12_end_known_partial). False in the code for substreams without a given size (C56_substream_unknown_size_refuted), substreams longer than their parent (C56_truncated_substream_refuted), streams ended by a string that does not come (C12_size_at_eof_refuted) and SkippingFileInputStream on a file whose size the system does not tell (C56_skipping_file_unknown_size_refuted)."
  },
  {
   "property": "C57",
   "status": "partial",
   "theorems": [
    "C57_after_first_use_partial",
    "C57_first_use_ends",
    "C57_texts"
   ],
   "note": "All numbers of threads, texts, streams and interleavings, after a first use by one thread. Partial because the first use itself is not safe in the code: initialize() sets its flag before it fills the tables, so another thread decodes valid text to nothing (C57_first_use_refuted) or to wrong bytes (C57_wrong_bytes_refuted), even a thread that has filled the tables itself (C57_cleared_again_refuted), and there is a data race (C57_race_refuted). Sequential consistency; data races, which C++ leaves undefined, are a separate predicate."
  },
  {
   "property": "C58",
   "status": "partial",
   "theorems": [
    "C58_missing",
    "C58_missing_mapped_partial",
    "C58_map_fails_partial",
    "C58_there",
    "C58_read_errors",
    "C58_skipping_read_errors_partial"
   ],
   "note": "All paths, hints, histories (also calls after an error). C58_missing, C58_there and C58_read_errors are complete for their streams. False in the code for mapped files: skip() forgets the error (C58_mapped_skip_refuted), a failed mmap hands out a null pointer after skip and reset (C58_map_fails_refuted), a null path is undefined behaviour (C58_null_mapped_refuted); SkippingFileInputStream answers a read error with the number of bytes that came and goes on reading (C58_skipping_error_refuted). Empty mapped files: C21_mmap_empty_refuted."
  },
  {
   "property": "C59",
   "status": "partial",
   "theorems": [
    "C59_cut_archive_partial",
    "C59_memory_partial",
    "C59_ar_cut_archive_partial"
   ],
   "note": "All archives, all cut points, all histories on the entries, over any conforming input without errors of its own that reports its end when a read gets less than asked for (quiet; memory and mapped files are: ss_quiet). Complete for the members and their streams. The theorems give the exact status() at the end of the listing (it is the last index of cpio_cut and ar_cut): Error for cuts in names of cpio headers, in ar headers and ar tables of names, but Eof, not Error, if the cut is inside of the data of a member that is not read to its end (C59_silent_data_refuted) or in the first 110 bytes of a header (C59_silent_header_refuted); ar as well for data (C59_ar_silent_data_refuted)."
  }
 ]
}