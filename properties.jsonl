{"id": "C01", "title": "Byte-order helpers are involutions", "statement": "Applying adjust_endianness_{16,32,64} or adjust_endianness_{u16,u32,u64} (big_endian, little_endian, and the re-exported default) twice returns the original bytes or integer.", "quantifier": "every 16/32/64-bit value or byte array, both host byte orders, both modules, both settings of the use_little_endian feature", "why_tests_cant": "2^64 values times two host byte orders; CI runs on one little-endian host only", "anchors": ["src/io/big_endian.rs: adjust_endianness_*", "src/io/little_endian.rs: adjust_endianness_*", "src/io.rs: re-exports"]}
{"id": "C02", "title": "Byte-order helpers produce the wire order", "statement": "On every host, the native bytes of big_endian::adjust_endianness_uN(v) are the big-endian encoding of v, and reading the output of big_endian::adjust_endianness_N(bytes) natively gives the big-endian value of bytes; the little_endian module gives the little-endian encoding; the integer and array helpers agree with each other.", "quantifier": "every value and byte array, both host byte orders, both modules, all three widths", "why_tests_cant": "needs a big-endian and a little-endian machine and all 2^64 values", "anchors": ["src/io/big_endian.rs: adjust_endianness_*", "src/io/little_endian.rs: adjust_endianness_*"]}
{"id": "C03", "title": "Typed writes put network byte order on the stream", "statement": "A successful write_u8/u16/u32/u64 (and write_f32, write_s15f16 through their bit patterns) hands the underlying handler exactly the big-endian encoding (little-endian with the feature) of the value, of exactly 1/2/4/8 bytes, whatever the host byte order.", "quantifier": "every value, host, feature setting and I/O handler implementation", "why_tests_cant": "tests compare two or three literals on one host", "anchors": ["src/io/io_handler.rs: write_u8, write_u16, write_u32, write_f32, write_u64, write_s15f16", "src/io/big_endian.rs", "src/io/little_endian.rs"]}
{"id": "C04", "title": "Streams are portable between hosts", "statement": "A list of typed values written to a growable memory file on a host of either byte order reads back as the same list on a host of either byte order (same feature setting).", "quantifier": "every list of u8/u16/u32/u64/f32 values, every pair of hosts, every start content and position", "why_tests_cant": "CI has one host; the quantifier is over histories", "anchors": ["src/io/io_handler.rs: read_u*, write_u*, read_f32, write_f32", "src/io/file_mem.rs"]}
{"id": "C05", "title": "Typed write/read history round trip on a growable memory file", "statement": "Any sequence of typed writes (u8,u16,u16 array,u32,f32,u64) to a Vec-backed FileMem succeeds and advances tell() by the sum of the sizes; seeking back and issuing the matching reads succeeds, returns exactly the written values in order, leaves the content unchanged and ends at the same position.", "quantifier": "every initial content, every position, every sequence of typed values of any length", "why_tests_cant": "unbounded sequences and buffer contents", "anchors": ["src/io/io_handler.rs", "src/io/file_mem.rs: FileMem::{new,read,write,seek,tell}"]}
{"id": "C06", "title": "Fixed memory buffer: writes that fit have exact effect and frame", "statement": "A write to a slice/Box-backed FileMem that fits between the position and the end replaces exactly the bytes [pos, pos+n), leaves all others and the length unchanged, and advances the position by n.", "quantifier": "every buffer, position and payload that fits", "why_tests_cant": "all buffers, positions and lengths", "anchors": ["src/io/file_mem.rs: write", "src/io/io_handler.rs: write"]}
{"id": "C07", "title": "Fixed memory buffer: overflow is an error, never corruption or growth", "statement": "A write of n > 0 bytes with fewer than n bytes left fails with WriteZero after storing exactly the prefix that fits, the buffer never changes length, the position ends at the end of the buffer (or stays put if it was beyond), and no write of any size panics.", "quantifier": "every buffer, every position (also past the end), every payload", "why_tests_cant": "boundary behaviour for all sizes", "anchors": ["src/io/file_mem.rs: write"]}
{"id": "C08", "title": "Memory reads are exact", "statement": "FileMem::read of n bytes succeeds iff n bytes remain at the position (n=0 always succeeds); on success the buffer holds exactly those bytes and tell() advances by n; otherwise the error is UnexpectedEof; content is never modified and it never panics.", "quantifier": "every content, position, requested length, std version behaviour on EOF", "why_tests_cant": "all sizes and positions", "anchors": ["src/io/file_mem.rs: read", "src/io/io_handler.rs: read"]}
{"id": "C09", "title": "Memory seeks are exact or rejected", "statement": "FileMem::seek moves to exactly base+offset (base 0 / length / current) when that is in [0, 2^64), and otherwise fails with InvalidInput leaving the position unchanged; it never changes content and never panics.", "quantifier": "every content, position and SeekFrom value including i64::MIN and u64::MAX", "why_tests_cant": "2^64 offsets times positions", "anchors": ["src/io/file_mem.rs: seek", "src/io/io_handler.rs: seek"]}
{"id": "C10", "title": "reported_size is the length and is position neutral", "statement": "On FileMem and on a regular File, reported_size() returns the content length and leaves position and content as they were (whenever the position fits in usize and, for File, the OS reports no error); on a 32-bit target a position of 2^32 or more is NOT preserved.", "quantifier": "every content, position, handler kind, pointer width", "why_tests_cant": "all file lengths and positions", "anchors": ["src/io/io_handler.rs: reported_size", "src/io/file_mem.rs", "src/io/file_file.rs"]}
{"id": "C11", "title": "Growable memory file refines an abstract random-access file", "statement": "For every history of read/write/seek/tell/reported_size calls, a Vec-backed FileMem returns what an abstract file (length plus offset-to-byte function, unwritten gaps reading as 0) returns: an invariant of all reachable states. Both behaviours of std are covered where its versions differ: whether a failed read moves to the end, and whether writing nothing beyond the end extends the file.", "quantifier": "every history of operations of any length from any initial content, old and new std", "why_tests_cant": "unbounded histories", "anchors": ["src/io/file_mem.rs", "src/io/io_handler.rs"]}
{"id": "C12", "title": "u16 array transfer equals element-wise transfer, with exact partial effect", "statement": "write_u16_array(vs) behaves as write_u16 on each element in order, stopping at the first error; read_u16_array fills exactly the elements before the first failing read and leaves the rest of the caller's buffer untouched.", "quantifier": "every handler, every array length, every failure point", "why_tests_cant": "every failure point of every length", "anchors": ["src/io/io_handler.rs: read_u16_array, write_u16_array"]}
{"id": "C13", "title": "f32 transfer is bit exact", "statement": "write_f32 then read_f32 returns the identical f32 bit pattern for all 2^32 patterns, including NaN payloads, signed zeros and subnormals, on every host.", "quantifier": "every f32 bit pattern, host, feature setting", "why_tests_cant": "2^32 patterns", "anchors": ["src/io/io_handler.rs: read_f32, write_f32"]}
{"id": "C14", "title": "s15Fixed16 decoding is exact", "statement": "read_s15f16 of the 32-bit word w returns the f64 exactly equal to (signed w)/65536 for every word, except that with overflow checks enabled the single word 0x80000000 panics.", "quantifier": "all 2^32 words, both overflow-check settings", "why_tests_cant": "2^32 words, exact real equality", "anchors": ["src/io/io_handler.rs: read_s15f16, s15f16_to_f64"]}
{"id": "C15", "title": "s15Fixed16 encoding rounds half up and saturates", "statement": "write_s15f16(x) stores floor(65536*x + 1/2) saturated to the i32 range for every finite x, i32::MAX/MIN for +-infinity, 0 for NaN - with exactly one exception among all finite doubles, x = (1/2 - 2^-54)/65536, which is stored as 1 instead of 0.", "quantifier": "every f64", "why_tests_cant": "2^64 doubles; the exception is one value among them", "anchors": ["src/io/io_handler.rs: write_s15f16, f64_to_s15f16"]}
{"id": "C16", "title": "s15Fixed16 and XYZ round trips", "statement": "Every 32-bit word survives read_s15f16 followed by write_s15f16; every double in range survives write then read within 2^-17 + 2^-70; write_xyz then read_xyz returns each coordinate so, in order X, Y, Z, as 12 bytes.", "quantifier": "all words, all in-range doubles, all CIEXYZ triples", "why_tests_cant": "2^32 words and 2^64 doubles", "anchors": ["src/io/io_handler.rs: read_s15f16, write_s15f16, read_xyz, write_xyz", "src/types/cie_xyz.rs"]}
{"id": "C17", "title": "FileNull reads deliver zeros through typed reads only", "statement": "On FileNull every typed read (u8..u64, f32, s15f16, xyz) returns zero and advances tell() by its size regardless of history; but the raw read(buf) leaves buf untouched, so it does NOT deliver zeros into a non-zero buffer.", "quantifier": "every FileNull state and every history of writes, every buffer content", "why_tests_cant": "all histories; the documentation claims '0 is always read out'", "anchors": ["src/io/file_null.rs: read", "src/io/io_handler.rs"]}
{"id": "C18", "title": "FileNull position arithmetic", "statement": "With no overflow, FileNull tracks tell() as an ordinary file does: read/write advance by the length, seeks go to base+offset; with overflow checks on, every negative End/Current seek panics when the base is at least the magnitude (the valid case), while without checks it lands on the right position; a seek before the start (base+offset < 0) never fails: it lands at 2^w + base + offset, even with overflow checks. new() and default() both start at position 0 with nothing used.", "quantifier": "every state, SeekFrom value, pointer width, overflow-check setting", "why_tests_cant": "tests never seek backwards on FileNull; the two build profiles differ", "anchors": ["src/io/file_null.rs: seek, read, write, tell"]}
{"id": "C19", "title": "FileNull as a dry run for sizing", "statement": "For every history of non-empty writes and in-range seeks, FileNull reports the same tell() and the same reported_size() as a growable memory file started empty. An empty write beyond the end is the exception with older std (FileNull grows, the memory file does not); with newer std, whose Vec cursor pads on empty writes, they are covered too.", "quantifier": "every history of writes/seeks", "why_tests_cant": "unbounded histories compared across two implementations", "anchors": ["src/io/file_null.rs", "src/io/file_mem.rs"]}
{"id": "C20", "title": "File reads do not depend on how the OS splits them", "statement": "IOHandler::read on a readable regular File returns exactly the n bytes at the position and advances by n iff they exist, for every pattern of short reads and EINTR the OS may deliver; otherwise UnexpectedEof.", "quantifier": "every content, position, length and every schedule of short reads and interruptions", "why_tests_cant": "kernel schedules cannot be forced exhaustively from a test", "anchors": ["src/io/file_file.rs: read"]}
{"id": "C21", "title": "File writes do not depend on how the OS splits them", "statement": "IOHandler::write on a writable File stores exactly the bytes at the position (zero-filling a gap) and advances by n for every pattern of short writes and EINTR; if the OS fails after k bytes, exactly the first k bytes are stored.", "quantifier": "every content, position, payload and schedule", "why_tests_cant": "schedules cannot be forced exhaustively", "anchors": ["src/io/file_file.rs: write"]}
{"id": "C22", "title": "Memory and disk are interchangeable", "statement": "For every history of IOHandler calls that succeeds on a read/write File (positions below 2^63), the same history on a Vec-backed FileMem with the same content succeeds with the same results and the same final content and position; and the other way round, whatever succeeds in memory succeeds alike on disk under every pattern of short transfers and EINTR. Empty writes are excepted where std's Vec cursor pads up to the position on them (newer std): there a memory file grows and a disk file does not.", "quantifier": "every history, content and OS schedule without hard errors", "why_tests_cant": "unbounded histories across two implementations", "anchors": ["src/io/file_mem.rs", "src/io/file_file.rs", "src/io/io_handler.rs"]}
{"id": "C23", "title": "Signature from bytes pads and truncates", "statement": "Signature::from(&[u8]) (and &str, &[u8;1..4], Signature::new) equals the big-endian value of the first four bytes of the input followed by spaces; all constructors agree; it never panics.", "quantifier": "every byte slice of every length", "why_tests_cant": "unbounded slices", "anchors": ["src/types/signature.rs: From<&[u8]>, From<&[u8;N]>, From<&str>, new"]}
{"id": "C24", "title": "Signature conversions are lossless", "statement": "u32 -> Signature -> u32, [u8;4] -> Signature -> [u8;4] and back are identities, and two signatures are equal iff their four bytes are equal.", "quantifier": "all 2^32 signatures", "why_tests_cant": "2^32 values", "anchors": ["src/types/signature.rs: From<Signature> for u32, From<u32>, From<Signature> for [u8;4], PartialEq"]}
{"id": "C25", "title": "Signature to String", "statement": "String::from(sig) is the text of the four bytes iff they are a concatenation of UTF-8 encodings of Unicode scalar values, and four spaces otherwise; converting that String back gives the same signature in the first case and the default signature in the second.", "quantifier": "all 2^32 signatures", "why_tests_cant": "2^32 values; validity of UTF-8 has many boundary cases", "anchors": ["src/types/signature.rs: From<Signature> for String, From<&str>"]}
{"id": "C26", "title": "Signature constants match lcms2 and are unambiguous", "statement": "Every named signature constant in the categories tag, tag type, technology, colour space, profile class, platform, stage and curve segment equals the constant of the same meaning in the C lcms2 bindings shipped with the tests, except exactly technology::DIGITAL_CINEMA_PROJECTOR, which is 'dcpj' where C has 'dcjp'. Within each category (and in the miscellaneous and plug-in lists, which have no counterpart in the bindings) two names share a value only for the documented aliases red/green/blue colorant = matrix column.", "quantifier": "every constant and every pair of constants within a category", "why_tests_cant": "the pairwise statement is over the whole table; no test covers it (tests/profile/mod.rs is empty)", "anchors": ["src/types/signatures/*.rs", "tests/include/bindings.rs"]}
{"id": "C27", "title": "ICC header codec is a bijection", "statement": "to_bytes(from_bytes(b)) = b for every 128-byte block, and from_bytes(to_bytes(h)) = h for every header value, on both hosts.", "quantifier": "all 256^128 blocks, all headers, both hosts and feature settings", "why_tests_cant": "256^128 blocks", "anchors": ["src/types/icc_header.rs: ICCHeaderConverter::{from_bytes,to_bytes,swap_endianness}"]}
{"id": "C28", "title": "ICC header layout", "statement": "from_bytes decodes every header field as the big-endian integer at the offset the ICC specification gives it (size 0, CMM 4, version 8, class 12, space 16, PCS 20, date 24, magic 36, platform 40, flags 44, manufacturer 48, model 52, attributes 56, intent 64, illuminant 68, creator 80, id 84, reserved 100), independent of host; with use_little_endian, little-endian.", "quantifier": "all 128-byte blocks, both hosts", "why_tests_cant": "all blocks; wrong offsets could cancel out on the single test file", "anchors": ["src/types/icc_header.rs: ICCHeader (repr(C)), from_bytes", "src/types/profile_id.rs"]}
{"id": "C29", "title": "Tag entry codec", "statement": "TagEntry decoding reads signature, offset, size as big-endian words at offsets 0, 4, 8 and is a bijection with encoding, on both hosts.", "quantifier": "all 12-byte blocks", "why_tests_cant": "2^96 blocks", "anchors": ["src/types/tag_entry.rs: TagEntryConverter"]}
{"id": "C30", "title": "ICC date to calendar conversion is total exactly on real dates", "statement": "Converting a DateTimeNumber to NaiveDateTime panics exactly when month/day is not a proleptic Gregorian date or the time is not within 00:00:00-23:59:59, and otherwise preserves all six fields.", "quantifier": "all 2^96 DateTimeNumber values", "why_tests_cant": "2^96 values, leap-year rule", "anchors": ["src/types/date_time_number.rs: From<DateTimeNumber> for NaiveDateTime"]}
{"id": "C31", "title": "ICC date round trip", "statement": "A valid DateTimeNumber converts to NaiveDateTime and back unchanged iff its year is not 0 (year 0 comes back as year 1); a NaiveDateTime with year 1..65535 converts to DateTimeNumber and back unchanged up to its sub-second part, while other years are truncated modulo 2^16 of the era year.", "quantifier": "all dates", "why_tests_cant": "all dates", "anchors": ["src/types/date_time_number.rs"]}
{"id": "C32", "title": "Opening a profile: complete functional specification", "statement": "open_from_file_thr in Read mode on a file with content c returns Ok exactly when c has 128+4+12n bytes at least, 'acsp' at offset 36, a valid date and n <= 100 declared tags (and, with overflow checks, no offset+size beyond 2^32); the resulting fields are the decoded header fields, and the tag table is exactly the in-bounds directory entries in directory order, with links computed as the code does.", "quantifier": "every file content, every OS read schedule, both hosts, both overflow settings", "why_tests_cant": "all files", "anchors": ["src/types/profile.rs: open_from_file_thr, read_header_thr", "src/types/icc_header.rs", "src/types/tag_entry.rs"]}
{"id": "C33", "title": "Accepted tags lie inside the file", "statement": "After a successful open every listed tag satisfies offset + size <= min(header size, file length) as mathematical integers, there are at most 100 of them and at most as many as declared, and no in-bounds directory entry is dropped or reordered.", "quantifier": "every file content", "why_tests_cant": "all files including adversarial offsets near 2^32", "anchors": ["src/types/profile.rs: read_header_thr"]}
{"id": "C34", "title": "When opening can panic", "statement": "Opening a file for reading panics exactly when it has a readable 128-byte header with the right magic and an invalid calendar date/time, or, with overflow checks enabled, when a directory entry reached by the parser has offset+size >= 2^32; every other file yields Ok or Err. In particular 'never panics on untrusted input' is false.", "quantifier": "every file content, both overflow settings", "why_tests_cant": "all files; the test suite opens one valid file", "anchors": ["src/types/profile.rs: read_header_thr", "src/types/date_time_number.rs"]}
{"id": "C35", "title": "Error reporting of open", "statement": "A wrong magic yields InvalidData and exactly one BadSignature callback; more than 100 tags yields InvalidData and exactly one Range callback naming the count; every other outcome invokes the error handler zero times and leaves the context untouched.", "quantifier": "every file content, every context and error handler", "why_tests_cant": "all files and handlers", "anchors": ["src/types/profile.rs: read_header_thr", "src/state/context.rs: signal_error", "src/state/chunks/error_handler.rs"]}
{"id": "C36", "title": "Opening for read is local and read-only", "statement": "The result of opening depends only on the first 132+12n bytes and the file length; the file content is never modified, also when the file cannot be opened; no opening, for reading or for writing, changes what may be read or created.", "quantifier": "every pair of files agreeing on the directory bytes and length", "why_tests_cant": "all pairs of files", "anchors": ["src/types/profile.rs: read_header_thr"]}
{"id": "C37", "title": "Opening is host independent", "statement": "Opening the same bytes on a little-endian and a big-endian host gives the same outcome and the same profile.", "quantifier": "every file content", "why_tests_cant": "CI has one host", "anchors": ["src/types/profile.rs", "src/types/icc_header.rs", "src/types/tag_entry.rs", "src/io/io_handler.rs"]}
{"id": "C38", "title": "Tag signature accessor", "statement": "For an opened profile, get_tag_signature(n) returns the n-th accepted tag for n < get_tag_count(), the default signature for n >= count, except that n = count = 100 panics (off-by-one bound).", "quantifier": "every opened profile and every n", "why_tests_cant": "needs a 100-tag profile; all n", "anchors": ["src/types/profile.rs: get_tag_signature, get_tag_count"]}
{"id": "C39", "title": "Direct tag search finds the first match", "statement": "Tag search without link following returns the smallest index whose signature matches, and nothing iff no listed tag has it.", "quantifier": "every opened profile and signature", "why_tests_cant": "all tables", "anchors": ["src/types/profile.rs: search_one_tag, search_tag"]}
{"id": "C40", "title": "Link-following tag search may not terminate", "statement": "Tag search with link following returns (the first match) when the first match carries no link and runs forever when it does: every linked tag links to itself, so termination fails exactly for tags that share offset and size with a later tag.", "quantifier": "every opened profile and signature", "why_tests_cant": "non-termination cannot be observed by a test", "anchors": ["src/types/profile.rs: search_tag, read_header_thr (tag_linked)"]}
{"id": "C41", "title": "Shared tag data links", "statement": "A tag that shares offset and size with an earlier tag should be linked to it; in the code it is the earlier tag that becomes linked (to itself) and the later one stays unlinked: for every opened profile, entry j carries a link iff a later accepted entry has the same offset and size, and the link is its own signature.", "quantifier": "every opened profile", "why_tests_cant": "all directories; the test file has no shared tags", "anchors": ["src/types/profile.rs: read_header_thr (tag_linked)"]}
{"id": "C42", "title": "Opening for write always fails and truncates", "statement": "open_from_file(_thr) in Write mode never returns a profile: if the file can be created it is truncated to empty, the open then fails with an I/O error and the previous content is lost.", "quantifier": "every file system state and path", "why_tests_cant": "all prior contents", "anchors": ["src/types/profile.rs: open_from_file_thr"]}
{"id": "C43", "title": "Profile equality is an equivalence and ignores the I/O handler", "statement": "== on Profile is reflexive, symmetric and transitive, and profiles with equal observable fields are equal whatever their handlers.", "quantifier": "all profiles", "why_tests_cant": "all triples of profiles", "anchors": ["src/types/profile.rs: PartialEq for Profile", "src/types/profile_id.rs: PartialEq"]}
{"id": "C44", "title": "A panicking open poisons the global context for ever", "statement": "open_from_file behaves as open_from_file_thr on a fresh default context until the first call that panics; from then on every open_from_file call panics, whatever file it is given, while open_from_file_thr is unaffected.", "quantifier": "every history of opens", "why_tests_cant": "histories of any length", "anchors": ["src/types/profile.rs: open_from_file", "src/state/context.rs: GLOBAL_CONTEXT"]}
{"id": "C45", "title": "Concurrent global opens are linearizable", "statement": "Under every interleaving of threads calling open_from_file, each call's outcome is that of some sequential order: calls never overlap in the critical section, outcomes depend only on the file and on whether an earlier call panicked, and no call observes a modified context.", "quantifier": "every number of threads, every program, every schedule", "why_tests_cant": "schedules cannot be enumerated by tests", "anchors": ["src/types/profile.rs: open_from_file", "src/state/context.rs: GLOBAL_CONTEXT"]}
{"id": "C46", "title": "init_plugin acceptance", "statement": "init_plugin returns Ok iff every plugin except the last one of the chain has the magic, a version <= 2131 and a known type; in particular the last plugin (and a single plugin) is never validated.", "quantifier": "every plugin chain of every length and every context", "why_tests_cant": "unbounded chains", "anchors": ["src/state/context.rs: init_plugin", "src/plugins/plugin.rs"]}
{"id": "C47", "title": "init_plugin reports the first offender once", "statement": "When init_plugin fails it has invoked the error handler exactly once, with UnknownExtension and the text of the Err value, for the first offending plugin (magic checked before version before type); when it succeeds it has not invoked it and the context is unchanged.", "quantifier": "every plugin chain, context and handler", "why_tests_cant": "unbounded chains", "anchors": ["src/state/context.rs: init_plugin, signal_error", "src/state/chunks/error_handler.rs"]}
{"id": "C48", "title": "Context user data and defaults are stable", "statement": "get_user_data returns exactly what was given to Context::new after any history of public operations, and the other settings keep their defaults.", "quantifier": "every history of public operations", "why_tests_cant": "unbounded histories", "anchors": ["src/state/context.rs: new, get_user_data, init_plugin, signal_error", "src/state/chunks/*.rs"]}
{"id": "C49", "title": "Plugin type predicates partition", "statement": "For every PluginType value exactly one of the nine is_* predicates is true, and it is the one named after the variant.", "quantifier": "every PluginType value", "why_tests_cant": "every payload of every variant", "anchors": ["src/plugins/plugin.rs: PluginType::is_*"]}
{"id": "C50", "title": "Parametric evaluation panics exactly on missing parameters", "statement": "default_eval_parametric_fn never panics when params has at least the parameter_count registered for |type|, and for a supported type it panics exactly when params is shorter; extra parameters never influence the result.", "quantifier": "every i32 type, every params slice, every r", "why_tests_cant": "unbounded slices, all doubles", "anchors": ["src/plugins/para_curve.rs: default_eval_parametric_fn, ParametricCurves::default"]}
{"id": "C51", "title": "Supported curve types", "statement": "is_in_set(t) returns the table position of |t| (same for t and -t), None iff unsupported, and panics only for i32::MIN with overflow checks; the evaluator returns 0 for every unsupported type without touching params.", "quantifier": "all 2^32 types", "why_tests_cant": "2^32 types", "anchors": ["src/plugins/para_curve.rs: is_in_set, default_eval_parametric_fn"]}
{"id": "C52", "title": "Curve type 1 is inverted by type -1", "statement": "In exact real arithmetic with IEEE special cases, evaluating type 1 (Y=X^g) and then type -1 with the same parameters returns the input for all parameters and inputs in the documented domain (|g| >= tolerance and r > 0 (r >= 0 if g > 0)).", "quantifier": "all real parameters and inputs in the domain", "why_tests_cant": "a continuum of parameters; sampling cannot settle an identity", "anchors": ["src/plugins/para_curve.rs: default_eval_parametric_fn arms 1 and -1"]}
{"id": "C53", "title": "Curve type 2 is inverted by type -2", "statement": "In exact real arithmetic with IEEE special cases, evaluating type 2 (Y=(aX+b)^g) and then type -2 with the same parameters returns the input for all parameters and inputs in the documented domain (a >= tolerance, |g| >= tolerance, r >= 0, aX+b > 0).", "quantifier": "all real parameters and inputs in the domain", "why_tests_cant": "a continuum of parameters; sampling cannot settle an identity", "anchors": ["src/plugins/para_curve.rs: default_eval_parametric_fn arms 2 and -2"]}
{"id": "C54", "title": "Curve type 3 is inverted by type -3", "statement": "In exact real arithmetic with IEEE special cases, evaluating type 3 (Y=(aX+b)^g+c) and then type -3 with the same parameters returns the input for all parameters and inputs in the documented domain (a >= tolerance, g <> 0, r >= max(0,-b/a), ar+b > 0; on the flat part r < max(-b/a,0) the value is c and the reverse of c is 0; the reverse of anything below c is -b/a).", "quantifier": "all real parameters and inputs in the domain", "why_tests_cant": "a continuum of parameters; sampling cannot settle an identity", "anchors": ["src/plugins/para_curve.rs: default_eval_parametric_fn arms 3 and -3"]}
{"id": "C55", "title": "Curve type 4 is inverted by type -4", "statement": "In exact real arithmetic with IEEE special cases, evaluating type 4 (sRGB-like with linear toe) and then type -4 with the same parameters returns the input for all parameters and inputs in the documented domain (a,c >= tolerance, g >= tolerance, the toe c*d at the break not above the power part there, and a*r+b >= 0 from the break on).", "quantifier": "all real parameters and inputs in the domain", "why_tests_cant": "a continuum of parameters; sampling cannot settle an identity", "anchors": ["src/plugins/para_curve.rs: default_eval_parametric_fn arms 4 and -4"]}
{"id": "C56", "title": "Curve type 5 is inverted by type -5", "statement": "In exact real arithmetic with IEEE special cases, evaluating type 5 (type 4 with offsets) and then type -5 with the same parameters returns the input for all parameters and inputs in the documented domain (a,c >= tolerance, g >= tolerance, c*d+f at the break not above the power part plus e there, and a*r+b >= 0 from the break on).", "quantifier": "all real parameters and inputs in the domain", "why_tests_cant": "a continuum of parameters; sampling cannot settle an identity", "anchors": ["src/plugins/para_curve.rs: default_eval_parametric_fn arms 5 and -5"]}
{"id": "C57", "title": "Curve type 6 is inverted by type -6", "statement": "In exact real arithmetic with IEEE special cases, evaluating type 6 (Y=(aX+b)^g+c) and then type -6 with the same parameters returns the input for all parameters and inputs in the documented domain (|a| >= tolerance, ar+b > 0 with g <> 0, or ar+b = 0 with g > 0).", "quantifier": "all real parameters and inputs in the domain", "why_tests_cant": "a continuum of parameters; sampling cannot settle an identity", "anchors": ["src/plugins/para_curve.rs: default_eval_parametric_fn arms 6 and -6"]}
{"id": "C58", "title": "Curve type 7 is inverted by type -7", "statement": "In exact real arithmetic with IEEE special cases, evaluating type 7 (Y=a*log10(bX^g+c)+d) and then type -7 with the same parameters returns the input for all parameters and inputs in the documented domain (a,b,g >= tolerance, r >= 0 and bX^g+c > 0).", "quantifier": "all real parameters and inputs in the domain", "why_tests_cant": "a continuum of parameters; sampling cannot settle an identity", "anchors": ["src/plugins/para_curve.rs: default_eval_parametric_fn arms 7 and -7"]}
{"id": "C59", "title": "Curve type 8 is inverted by type -8", "statement": "In exact real arithmetic with IEEE special cases, evaluating type 8 (Y=a*b^(cX+d)+e) and then type -8 with the same parameters returns the input for all parameters and inputs in the documented domain (a >= tolerance, b > 0, b <> 1, |c| >= tolerance).", "quantifier": "all real parameters and inputs in the domain", "why_tests_cant": "a continuum of parameters; sampling cannot settle an identity", "anchors": ["src/plugins/para_curve.rs: default_eval_parametric_fn arms 8 and -8"]}
{"id": "C60", "title": "Curve type 108 is inverted by type -108", "statement": "In exact real arithmetic with IEEE special cases, evaluating type 108 (S-shaped (1-(1-x)^(1/g))^(1/g)) and then type -108 with the same parameters returns the input for all parameters and inputs in the documented domain (g >= tolerance, 0 <= r <= 1).", "quantifier": "all real parameters and inputs in the domain", "why_tests_cant": "a continuum of parameters; sampling cannot settle an identity", "anchors": ["src/plugins/para_curve.rs: default_eval_parametric_fn arms 108 and -108"]}
{"id": "C61", "title": "Curve type -109 does not invert type 109", "statement": "For every k <> 0, type -109 applied to type 109 of r gives ((2r-1)/ln 10 + 1)/2 rather than r, so it inverts only at r = 1/2 (a base-10 logarithm stands where the natural one is needed).", "quantifier": "all real k <> 0 and r", "why_tests_cant": "a continuum of inputs", "anchors": ["src/plugins/para_curve.rs: sigmoid_factory, inverted_sigmoid_factory, inverted_sigmoid_base"]}
{"id": "C62", "title": "Gamma curve on negative input", "statement": "Type 1 on r < 0 returns r when |gamma| < 1 + tolerance and 0 otherwise, whereas type -1 (and lcms2) return r only when |gamma - 1| < tolerance; the two disagree exactly for gamma <= 1 - tolerance with |gamma| below 1 + tolerance.", "quantifier": "all gamma and all negative r", "why_tests_cant": "a continuum of inputs", "anchors": ["src/plugins/para_curve.rs: default_eval_parametric_fn arms 1 and -1"]}
{"id": "C63", "title": "Monotone curves", "statement": "In exact arithmetic, types 1 (g > 0, r >= 0), 4 (sRGB-like ordered parameters), 108 (g >= tolerance, on [0,1]) and 109 (k <> 0) are strictly increasing.", "quantifier": "all parameters and pairs of inputs in the domain", "why_tests_cant": "a continuum", "anchors": ["src/plugins/para_curve.rs"]}
{"id": "C64", "title": "Sigmoid and S-shaped end points", "statement": "Types 108 and 109 fix 0 and 1 for all admissible parameters, 109 fixes 1/2 and is point-symmetric about (1/2,1/2), in exact arithmetic.", "quantifier": "all parameters", "why_tests_cant": "a continuum", "anchors": ["src/plugins/para_curve.rs: sigmoid_factory, arm 108"]}
{"id": "C65", "title": "Data is durable once close succeeds", "statement": "If IOHandler::close on a File returned Ok, then whatever crash follows, the file holds exactly the content produced by the writes; before close, a crash may leave any mix. Closing a File fails exactly if the system refuses to write the data out, possibly after interruptions, which are retried, and then changes nothing; closing a memory or null source always succeeds.", "quantifier": "every history of writes and every crash point", "why_tests_cant": "crash points cannot be enumerated by tests", "anchors": ["src/io/file_file.rs: close"]}
{"id": "C66", "title": "Opening from a source that changes while it is read", "statement": "Opening a profile makes one pass over its source: a fixed script of at most 106 calls, none of them a write. Whatever the source answers — even if the file is replaced between calls — the profile is exactly the one denoted by the bytes that were delivered, each listed tag comes from an entry delivered and is within bounds, and an error or a panic happens only when an answer justifies it.", "quantifier": "every source behaviour, including adversarial ones", "why_tests_cant": "a source's answers form an infinite tree", "anchors": ["src/types/profile.rs: read_header, open_from_file_thr", "src/io/mod.rs"]}
{"id": "C67", "title": "No execution of concurrent opens deadlocks or runs forever", "statement": "For any number of threads and any programs of calls to open_from_file, every execution is finite, from every reachable state all threads can run to completion, and each thread ends having had every call answered unless it died in a panic.", "quantifier": "every number of threads, every program, every schedule", "why_tests_cant": "schedules cannot be enumerated by tests", "anchors": ["src/types/profile.rs: open_from_file", "src/state/context.rs: GLOBAL_CONTEXT"]}
{"id": "C68", "title": "A profile file written by the crate opens as what was written", "statement": "Writing a header, a tag count, tag entries and data with the crate's conversion and write calls on one host, then opening the file on any other host built with the same byte-order feature, gives a profile with the same header fields and exactly the tags whose data is within the declared size and the file; for differing features it fails.", "quantifier": "all headers, tag tables up to 100, data, hosts and short-transfer schedules", "why_tests_cant": "infinitely many files and two hosts", "anchors": ["src/types/header.rs", "src/types/tag_entry.rs", "src/types/profile.rs: read_header"]}
{"id": "C69", "title": "Signatures print unambiguously", "statement": "Formatting a signature with {:?} or {:#?} shows its four bytes as quoted text when they are plain ASCII, as four two-column hexadecimal bytes when they are not UTF-8, and never shows two different signatures the same way; {:?} never breaks the line. Complaints about plug-ins of different unknown types differ.", "quantifier": "all 2^32 signatures (pairs of them), every std Unicode table", "why_tests_cant": "2^64 pairs; the escaping tables differ between Rust releases", "anchors": ["src/types/signature.rs: impl Debug", "src/state/context.rs: find_suitable_plugin error text"]}
{"id": "C70", "title": "Profile ids: views, equality, text", "statement": "A ProfileID read through id16 or id32 and rebuilt gives the same 16 bytes on either byte order; == holds iff the 16 bytes agree; the id of a new profile is 16 zero bytes on every host; the Debug text lists the 16 bytes in hexadecimal and is injective.", "quantifier": "all ids (2^128), both host byte orders", "why_tests_cant": "state space; tests run on one byte order", "anchors": ["src/types/profile_id.rs"]}
{"id": "C71", "title": "When two opened profiles are equal", "statement": "Two profiles opened from files, on any hosts, compare == iff their headers agree in version, class, colour space, PCS, date, intent, flags, manufacturer, model, attributes, creator and id and they list the same tags (name, offset, size, in order); so reopening a file gives an equal profile (also on a host of another width if the file is below 4 GiB), and declared size, CMM, platform, illuminant, reserved bytes and tag data do not matter as such.", "quantifier": "all pairs of files, hosts, schedules, contexts", "why_tests_cant": "infinitely many pairs of files", "anchors": ["src/types/profile.rs: impl PartialEq", "src/types/profile.rs: open_from_file"]}
{"id": "C72", "title": "The parametric curves are the ICC formulas", "statement": "In exact arithmetic, for every exponent, every forward curve returns the value of its ICC.1 formula wherever that is defined (a positive power base, a zero base with a positive exponent, a negative input of type 7 with an integer exponent), with these exceptions only: a slope below the tolerance or negative makes type 2 constantly 0; a tiny slope makes type 3 constantly 0; type 3 is c on negative inputs above its break and 0 at a non-negative break. Where the formula is undefined: a negative power base gives the constant part (0 for type 3 with a negative slope from its break on), a zero base with a negative exponent infinity (0, c or e in the types that test for it), a non-positive logarithm argument d, and a non-integer power of a negative input of type 7 NaN.", "quantifier": "all real parameters and inputs", "why_tests_cant": "uncountably many parameters", "anchors": ["src/plugins/para_curve.rs: default_eval_parametric_fn"]}
{"id": "C73", "title": "The reversed curves find preimages", "statement": "In exact arithmetic, for every output y in the stated range, evaluating the reversed curve at y gives an x where the forward curve is exactly y (types 1-8 and 108).", "quantifier": "all real parameters and outputs in range", "why_tests_cant": "uncountably many parameters", "anchors": ["src/plugins/para_curve.rs: default_eval_parametric_fn"]}
{"id": "C74", "title": "Curves keep the unit interval", "statement": "In exact arithmetic types 1, 4, 108 and 109 map [0,1] into [0,1] under the stated parameter conditions, and type 2 is never negative.", "quantifier": "all real parameters and inputs", "why_tests_cant": "uncountably many parameters", "anchors": ["src/plugins/para_curve.rs: default_eval_parametric_fn"]}
{"id": "C75", "title": "Computed curves are monotone", "statement": "At binary64 with rounding, for any math library with a monotone powf, curves 1, -1, 2, -2, 4, 5, 6 are weakly increasing over all non-NaN inputs, infinities included, for positive exponent and slope (types 4 and 5: if the computed values at the break are in order); type 3 is not increasing with any math library.", "quantifier": "all binary64 parameters and inputs, all monotone powf", "why_tests_cant": "2^128 and more combinations, unknown libm", "anchors": ["src/plugins/para_curve.rs: default_eval_parametric_fn"]}
{"id": "C76", "title": "NaN through the curves", "statement": "At binary64 a NaN input gives: 0 for type 2; c (0 for a tiny slope) for type 3; -b/a (0 for a tiny slope) for -3; NaN for 4 and 5, and for -4 and -5 unless c is tiny, with any math library; for the other types NaN unless the guard on tiny parameters applies, given a math library that follows the C rules for NaN, a nonzero exponent (a finite one where its reciprocal is used) and, for type 8, a base other than 1.", "quantifier": "all binary64 parameters, all math libraries (obeying the C rules for NaN where used)", "why_tests_cant": "2^64 and more parameters, unknown libm", "anchors": ["src/plugins/para_curve.rs: default_eval_parametric_fn"]}
{"id": "C77", "title": "Rounding-exact thresholds of the curves", "statement": "At binary64, with any math library: type 1 returns a negative input unchanged iff |gamma| < 1 + tol exactly, type -1 iff |gamma - 1| < tol exactly, both 0 otherwise; -2 is never negative; a sigmoid whose exp(-k) rounds to 1 never gives a finite value.", "quantifier": "all binary64 parameters and inputs, all math libraries", "why_tests_cant": "2^128 combinations, unknown libm", "anchors": ["src/plugins/para_curve.rs: default_eval_parametric_fn"]}
{"id": "C78", "title": "s15Fixed16 respects order", "statement": "Encoding a larger number never gives a smaller word (infinities included); for two decodable words the decoded values are in the same order as the words; encoding, decoding and encoding again changes nothing.", "quantifier": "all binary64 values, all 32-bit words", "why_tests_cant": "2^128 pairs of doubles", "anchors": ["src/io/io_handler.rs:488-503 s15f16_to_f64, f64_to_s15f16"]}
{"id": "C79", "title": "Round-trip error of the gamma curve at binary64", "statement": "With any powf whose logarithm is off by at most k, the gamma curve after its reverse gives back the input with an error of the logarithm of at most (1+g)k + u|ln y|, and the reverse after the curve at most (1+(1+u)/g)k + u|ln x| (u = 2^-53), as long as the values stay within e^-690..e^690 and g between the tolerance and 10000.", "quantifier": "all binary64 gammas and inputs in range, all powf with such a k, where gamma*k <= 1 (reverse first) or k <= gamma (curve first)", "why_tests_cant": "2^128 combinations, unknown libm", "anchors": ["src/plugins/para_curve.rs: default_eval_parametric_fn"]}
{"id": "C80", "title": "16-bit values survive the gamma round trip", "statement": "With any powf good to one unit in the last place, for every gamma between 1/4 and 4 each value between 2^-16 and 1 survives curve and reverse, in either order, to within 2^-48 of its size.", "quantifier": "all binary64 gammas in [1/4,4] and inputs in [2^-16,1], all accurate powf", "why_tests_cant": "about 2^112 combinations, unknown libm", "anchors": ["src/plugins/para_curve.rs: default_eval_parametric_fn"]}
{"id": "C81", "title": "Round-trip error of the curve types 2 and 4 at binary64", "statement": "With any powf whose logarithm is off by at most k, the reverse of a type 2 curve (and of a type 4 curve above its break) applied to the curve's value at r >= 0 gives r back with an error of at most (2(e^t - 1) + 8u)(r + b/a), where t = (1+(1+u)/g)k + u(|ln(ar+b)|+1) and u = 2^-53; below the break of a type 4 curve that does not step down at the break the error is at most 3u r + 2^-1060.", "quantifier": "all binary64 parameters with gamma, a, c between the tolerance and 10000, b >= 0 and d between 0 and 10000, all non-negative inputs in range, all powf with k at most 1/100 and gamma/100 (for type 4 above the break also monotone)", "why_tests_cant": "2^256 combinations and more, unknown libm", "anchors": ["src/plugins/para_curve.rs: default_eval_parametric_fn"]}
{"id": "C82", "title": "The sRGB curve survives its round trip", "statement": "With any monotone powf good to one unit in the last place and parameters within 10^-10 of the sRGB ones (2.4, 1/1.055, 0.055/1.055, 1/12.92, 0.04045), the type 4 curve does not step down at its break and every r in [0,1] survives curve and reverse to within 2^-47 r + 2^-1060.", "quantifier": "all binary64 parameters near the sRGB ones, all binary64 r in [0,1], all accurate monotone powf", "why_tests_cant": "2^62 inputs, unknown libm", "anchors": ["src/plugins/para_curve.rs: default_eval_parametric_fn"]}
{"id": "C83", "title": "Accuracy of the sRGB curve", "statement": "With any powf good to one unit in the last place, the type 4 curve with parameters within t (at most 10^-5) of the sRGB ones is within 7t + 10^-8 of the IEC 61966-2.1 formula for every r in [0,1], the break included.", "quantifier": "all binary64 parameters near the sRGB ones, all binary64 r in [0,1], all accurate powf", "why_tests_cant": "2^62 inputs per parameter set, unknown libm", "anchors": ["src/plugins/para_curve.rs: default_eval_parametric_fn"]}
{"id": "C84", "title": "An sRGB curve survives storage as s15Fixed16", "statement": "Encoding the sRGB parameters as s15Fixed16 gives the words 157286, 62119, 3417, 5072, 2651; the curve built from the decoded words is within 5*10^-5 of the sRGB formula on [0,1] and its reverse gives every input back to within 2^-47 r + 2^-1060, with or without overflow checks.", "quantifier": "all binary64 parameters within 10^-10 of the sRGB ones, all r in [0,1], all environments, all accurate monotone powf", "why_tests_cant": "2^62 inputs, unknown libm", "anchors": ["src/plugins/para_curve.rs: default_eval_parametric_fn", "src/io/io_handler.rs: f64_to_s15f16, s15f16_to_f64"]}
{"id": "C85", "title": "Order of the sRGB curve and its reverse", "statement": "The computed sRGB curve is increasing on all binary64 numbers. Its reverse is not increasing: around the break it steps back by at least 10^-9.", "quantifier": "all binary64 parameters within 10^-10 of the sRGB ones, all pairs of inputs, all accurate monotone powf", "why_tests_cant": "2^128 pairs, unknown libm", "anchors": ["src/plugins/para_curve.rs: default_eval_parametric_fn"]}
{"id": "C86", "title": "Fresh profiles and the private header reader", "statement": "Profile::new gives an empty version 2.1 profile: no handler, no tags, blank signatures, zero numbers and ids, 100 blank tag slots, created now; reading its header fails with InvalidData and changes nothing. The private read_header is read_header_thr on the initial context until a call through the global context has panicked, and panics without effect from then on.", "quantifier": "all clocks, handlers, histories of global calls", "why_tests_cant": "unbounded histories; private code", "anchors": ["src/types/profile.rs: new, read_header"]}
{"id": "C87", "title": "Numbers in messages are written in decimal", "statement": "A number in the messages about too many tags and about a plugin's version is written as plain decimal: digits only, at least one, no superfluous leading zero, standing for that number; there is exactly one such writing. The version named is 2131.", "quantifier": "all non-negative numbers", "why_tests_cant": "2^32 numbers", "anchors": ["src/types/profile.rs: read_header_thr", "src/types/context.rs: register_plugins"]}
{"id": "C88", "title": "Binary64 operations are exact ones followed by one rounding", "statement": "Every operation the curves use on f64 gives the exact extended-real result rounded once to nearest-even, with overflow to infinity and gradual underflow, for all operands including infinities and NaN; comparisons and maximum are exact; the literals are the decimal numbers written, rounded. The exact pow, log10 and exp are the C ones, with every special case.", "quantifier": "all pairs of binary64 values", "why_tests_cant": "2^128 pairs", "anchors": ["src/plugins/para_curve.rs: default_eval_parametric_fn"]}
{"id": "C89", "title": "Curves in binary64 are their formulas with every operation rounded", "statement": "With a correctly rounded math library, evaluating any curve in binary64 gives the same result (or index panic) as evaluating its formula on the exact values with each operation rounded, for every type, parameter list and input free of negative zeros. Such a library exists and meets the conditions assumed in C75-C85.", "quantifier": "all types, parameter lists and inputs without negative zeros, all correctly rounded libraries", "why_tests_cant": "2^64 inputs per curve, 2^448 parameter lists, unknown libm", "anchors": ["src/plugins/para_curve.rs: default_eval_parametric_fn"]}
{"id": "C90", "title": "Order of the reversed curves 3-6 in binary64", "statement": "Reversed types 3 (b zero), 4, 5 and 6 (b not above zero), computed in binary64 with any monotone pow, are weakly increasing on all numbers, types 4 and 5 provided they do not step back at their break. Reversed type 3 with -b/a above zero and reversed type 6 with -b/a below zero are not increasing.", "quantifier": "all parameters with gamma (and c) at least the tolerance and a positive, all pairs of inputs, all monotone pow", "why_tests_cant": "2^128 pairs of inputs per parameter list, unknown libm", "anchors": ["src/plugins/para_curve.rs: default_eval_parametric_fn, arms -3, -4, -5, -6"]}
{"id": "C91", "title": "Order of types 7, 8, 108 and their reverses in binary64", "statement": "Type 7 on non-negative inputs (positive parameters), reversed type 7 (c not above zero), type 8 (base above 1), reversed type 8 from e on, and type 108 and its reverse on the unit interval are weakly increasing; 108 and its reverse keep the unit interval. Type 7 with c zero, and reversed type 8 across e, are not increasing. A correctly rounded library meets the conditions.", "quantifier": "all parameters in the stated ranges, all pairs of inputs, all monotone libraries", "why_tests_cant": "2^128 pairs of inputs per parameter list, unknown libm", "anchors": ["src/plugins/para_curve.rs: default_eval_parametric_fn, arms 7, -7, 8, -8, 108, -108"]}
{"id": "C92", "title": "The sigmoid in binary64 is increasing or never finite", "statement": "For every finite parameter k, negative or zero too, type 109 is either weakly increasing on all numbers (when 1 + exp(-k) does not round to 2; for positive k it is then below 2) or gives no finite value anywhere (when it rounds to 2). In the first case its reverse is weakly increasing on the unit interval. An infinite k of either sign gives 0 below 1/2, 1 above it and NaN at 1/2, and reversed 1/2 or NaN for every input; a NaN gives NaN for every input.", "quantifier": "all k, all pairs of inputs, all monotone exp and log10 (for infinite and NaN k: every exp with the IEEE values there)", "why_tests_cant": "2^128 pairs of inputs for each of 2^63 parameters, unknown libm", "anchors": ["src/plugins/para_curve.rs: sigmoid_base, sigmoid_factory, inverted_sigmoid_base, inverted_sigmoid_factory"]}
{"id": "C93", "title": "Structures have C's layout", "statement": "DateTimeNumber, EncodedXYZNumber, ProfileID, ICCHeader, TagEntry and CIEXYZ have the size, alignment and field offsets Little CMS's C declarations have; on targets that align eight-byte numbers to four only the alignment of two of them differs. The converter unions hold exactly the structure, which has no padding. In general, the computed layout is the only one C's rules allow, and fields of a structure never overlap.", "quantifier": "all structure types for the rules; both alignments of eight-byte numbers for the crate's types", "why_tests_cant": "a layout test runs on one target; the rules hold for every nesting of types", "anchors": ["src/types/icc_header.rs: ICCHeader, ICCHeaderConverter", "src/types/tag_entry.rs: TagEntry, TagEntryConverter", "src/types/profile_id.rs: ProfileID", "src/types/date_time_number.rs", "src/types/encoded_xyz_number.rs", "src/types/cie_xyz.rs", "tests/include/bindings.rs: bindgen_test_layout_*"]}
{"id": "C94", "title": "Debugging texts can be read back", "statement": "Under {:?} and {:#?} the text of a header, tag entry, date, colour, plug-in part, chunk, in-memory or null handler, or error code determines the value (function pointers excepted), wherever it is nested; {:?} stays on one line. The texts do not always name their type: an interpolation chunk prints as an error chunk.", "quantifier": "all values, all nestings, all Unicode tables", "why_tests_cant": "injectivity is about all pairs of values; headers alone have 2^1024", "anchors": ["src/types/icc_header.rs: derive(Debug)", "src/types/tag_entry.rs", "src/plugins/*.rs: impl Debug", "src/state/chunks/error_handler.rs: impl Debug for LogErrorChunk", "src/state/chunks/interpolation.rs: impl Debug for InterpolationPluginChunk", "src/io/file_mem.rs", "src/io/file_null.rs"]}
{"id": "C95", "title": "Error codes: numbers and order", "statement": "The error codes are numbered 0 to 13 as in Little CMS, one each; their text is the code's name; comparison is a total order that agrees with equality and with the numbers.", "quantifier": "all codes, pairs and triples of codes", "why_tests_cant": "order laws quantify over all triples", "anchors": ["src/state/chunks/error_handler.rs: ErrorCode"]}
{"id": "C96", "title": "Computed curves are near their formulas", "statement": "With a powf, log10 and exp of known accuracy, every parametric curve 1-8, the S curve (108) and the sigmoid (109) computed in binary64 differs from the formula of its kind by at most a stated bound: the library's error, a few rounding steps, and those steps multiplied by how much the sum under the power cancels. A gamma of at most 10 on a x + b with b >= 0 keeps 46 bits.", "quantifier": "all finite parameters and inputs inside the stated range, all math libraries of the given accuracy", "why_tests_cant": "2^64 inputs per parameter set and unboundedly many parameter sets; the worst case is not at sample points", "anchors": ["src/plugins/para_curve.rs: default_eval_parametric_fn"]}
{"id": "C97", "title": "Computed reverse curves are near the inverse formulas", "statement": "The same for the reverse curves -1 to -8, -108 and -109: the result is within a stated bound of the inverse formula (for -109, of the formula the code has, which is not the inverse), on both sides of the break of types 4 and 5. On 16-bit values, gamma between 1/4 and 4, 45 bits of the terms are kept.", "quantifier": "all finite parameters and inputs inside the stated range, all math libraries of the given accuracy", "why_tests_cant": "2^64 inputs per parameter set and unboundedly many parameter sets", "anchors": ["src/plugins/para_curve.rs: default_eval_parametric_fn"]}
{"id": "C98", "title": "Disk files and fixed buffers are abstract files", "statement": "Every history of IOHandler calls, failing ones included, on a File opened with any rights gives the answers and leaves the content and position of an abstract random-access file with offsets up to 2^63-1, whatever short transfers and EINTR the OS delivers, on 32- and 64-bit targets; likewise a FileMem over a buffer that cannot grow, which stores what fits and reports WriteZero. When the OS also fails system calls outright, at most one call per failure is given up: it reports OsError, a read having passed over fewer bytes than asked for (all of them in the file), a write having stored a proper prefix; every other call of the history is as before and nothing panics.", "quantifier": "all histories, contents, positions, access rights, OS schedules (with and without hard errors), targets", "why_tests_cant": "unbounded histories times unbounded OS schedules", "anchors": ["src/io/file_file.rs", "src/io/file_mem.rs", "src/io/io_handler.rs: reported_size"]}
{"id": "C99", "title": "Where the curves give up", "statement": "At binary64 with any math library: types 2, -2, 3, -3, -4 to -8 and 108 return 0 for every input, NaN included, when a parameter they divide by is closer to zero than 0.0001 (-4 and -5: on both pieces; -7: also when it is negative), and for finite parameters of the reversed types only then; -1 returns 1e22. Below the forward range -2, -5, -6 and -8 return 0 and -3 returns -b/a, but 0 at c itself. Base 1 makes -8 non-finite, and -7 answers 0 for negative scales though the forward curve is injective there.", "quantifier": "all parameters, inputs, math libraries", "why_tests_cant": "2^64 inputs times parameters times libm implementations", "anchors": ["src/plugins/para_curve.rs: default_eval_parametric_fn"]}
{"id": "C100", "title": "Round-trip error of the other curve types at binary64", "statement": "With powf and log10 off by at most k and kl, the reverse of a curve of type 3, 5 (either piece), 6, 7, 8 or 108 applied to the curve's value at x gives x back with at most the error S_Return states in terms of the exact values on the way; for types 3 and 6 with a one-ulp powf, gamma and a in [1/4,4], b in [0,1], |c| <= 1, x in [0,1] and ax+b >= 1/16 it is at most 2^-31; for type 8 with a and c in [1/4,4], b in [2,16], |d| <= 2, |e| <= 1 and x in [0,1] at most 2^-38; for type 7 with gamma, a, b in [1/4,4], c in [0,1], |d| <= 1 and b*x^gamma >= 1/256 at most 2^-29; for type 108 with gamma in [1/2,2] and x in [1/16,15/16] at most 2^-29.", "quantifier": "all binary64 parameters and inputs within the stated ranges, all accurate math libraries", "why_tests_cant": "2^64 inputs times parameters times libm implementations", "anchors": ["src/plugins/para_curve.rs: default_eval_parametric_fn"]}
{"id": "C101", "title": "Debugging texts of profiles, contexts, dates and colours", "statement": "A date of the years 0 to 9999 is shown as in ISO 8601. Dates with leap seconds only at the end of a minute have different texts when they differ; chrono's other leap seconds look like the next second (refuted). Two profiles show the same text, on one line or on several, iff == holds and their handlers show the same text. Two contexts show the same text iff user data, alarm codes, adaptation state and the texts of the plug-ins are the same; the error handler and the interpolation factory are not shown. Colours and adaptation states that differ show different texts.", "quantifier": "all dates chrono can hold, all profiles with fields in range (opened and new ones are), all contexts, all handler and plug-in texts that can be read back, all float printers that separate finite numbers", "why_tests_cant": "whether two different values ever print alike is a question about all pairs", "anchors": ["src/types/profile.rs: Profile", "src/state/context.rs: Context", "src/types/cie_xyz.rs: CIEXYZ", "src/state/chunks/adaption_state.rs: AdaptionStateChunk"]}
{"id": "C102", "title": "Curves in binary64 with signed zeros", "statement": "With a math library whose results are correctly rounded and have C's signs, evaluating any curve in binary64 gives bit for bit (NaN payloads aside) its formula with each operation rounded and signed as IEEE 754 says, negative zeros allowed in parameters and input. The two zeros as input give numerically equal results for types 2, 3, -3, 4, 5, -7, 8, -8, 108, -108, 109, -109 and unknown types whatever the parameters, and for types 1, -1, -2, -4, -5, 6, -6, 7 if the exponent is positive; for each of the latter there are parameters that give different results (type 1 with gamma -1: the two infinities).", "quantifier": "all types, all parameter lists (any length, any value), all inputs, all such libraries", "why_tests_cant": "2^64 inputs for each parameter list; the equality with the rounded formula is about all of them", "anchors": ["src/plugins/para_curve.rs: default_eval_parametric_fn"]}
{"id": "C103", "title": "Curves with neutral parameters", "statement": "With gamma and slopes 1 and all other parameters 0 (the break of types 4 and 5 not below zero), types 1, -1, 4, -4, 5, -5 return every input unchanged, infinities and NaN included; types 2, 3, -3 return inputs above zero unchanged and zero for the rest, NaN included; types -2, 6, -6 return zero for inputs below zero and the rest unchanged, NaN included. With a break below zero, types 4, 5, -5 return zero for inputs between the break and zero, -4 still returns everything unchanged. Types 1 and -1 with gamma 1 return the input bit for bit.", "quantifier": "all binary64 inputs, all breaks, all math libraries whose first power is its argument (correctly rounded ones are such)", "why_tests_cant": "all 2^64 inputs and breaks", "anchors": ["src/plugins/para_curve.rs: default_eval_parametric_fn"]}
{"id": "C104", "title": "Which bytes of a file decide what opening it gives", "statement": "Two files of the same length that agree on the header and directory bytes outside the preferred CMM (4-7), platform (40-43), illuminant (68-79) and reserved bytes (100-127) open with the same outcome: result, error messages, context. No other byte of the header, the tag count or the first two directory entries can be added to this list: for each there are two files differing in it only that open differently. Two opened profiles are equal iff bytes 8-35, 44-67 and 80-99 of their files agree and the listed tags do; a change confined to a listed directory entry always makes the profiles differ; bytes 36-39 of every file that opens are 'acsp' (reversed in a little-endian-file build).", "quantifier": "all pairs of files, all OS schedules without hard errors (for equality and entries: with them too), all hosts and builds, all contexts", "why_tests_cant": "non-interference over all pairs of contents of up to 2^63 bytes", "anchors": ["src/types/profile.rs: read_header_thr, PartialEq for Profile", "src/types/icc_header.rs: ICCHeader", "src/types/tag_entry.rs: TagEntry"]}
{"id": "C105", "title": "Opening the first part of a file", "statement": "If opening the first part of a file gives anything but UnexpectedEof, opening the whole gives the same: the same error or panic, or a profile with the same header fields, and the same messages and context. The tags listed from the first part are exactly those listed from the whole that end within it, all of them once the first part reaches the size in the header. A file that opens, cut after m bytes, opens iff m reaches the end of its directory; otherwise opening gives UnexpectedEof without any message.", "quantifier": "all files, all places to cut, all OS schedules without hard errors, all hosts and builds, all contexts", "why_tests_cant": "all contents and all cuts; in particular that no later byte can turn a refusal into success", "anchors": ["src/types/profile.rs: open_from_file_thr, read_header_thr", "src/types/icc_header.rs: ICCHeader"]}
{"id": "C106", "title": "How the curve types contain each other", "statement": "In binary64 and whatever the math library computes, numerically: type 4 is type 5 with zero offsets, and type 5 is type 4 with the offset of its side of the break added; type 2 is type 4 with slope 0 and break -b/a (finite input); type 3 with zero offset is type 2 for inputs from zero on (slope and offset not both infinite), and with offset it is type 2 plus the offset except from the break on where a*r+b is not positive; type 1 is type 2 with slope 1 above zero; type 6 is the upper part of type 5 where a*r+b is not NaN (at zero: if zero to the gamma is zero); in types 7 (finite factor) and 8 factor and offset are applied last; the reverse of type 108 at 1-r with parameter 1/g is 1 minus type 108 at r. Reverses: -6 is the upper part of -5, equals -3 above the offset; -2 is the upper part of -4 cut off at zero; -1 is -2 with slope 1; -4 is -5 without offsets wherever the input is on the same side of both breaks. The exclusions are needed: examples.", "quantifier": "all parameters and inputs (NaN and infinities included unless excluded), all functions for pow, log10 and exp", "why_tests_cant": "each relation is over up to eight binary64 numbers and any math library", "anchors": ["src/plugins/para_curve.rs: default_eval_parametric_fn"]}
{"id": "C107", "title": "What typed transfers ask of their handler", "statement": "On every handler, whatever it answers: read_u8/u16/u32/u64, read_f32 and read_s15f16 make exactly one read into a zeroed buffer of their size and return the wire value of what it holds, or the handler's own error; read_xyz makes up to three, the first failure (or, with overflow checks, the word 0x80000000) ending it; the writes make exactly one write of the wire bytes (write_xyz three, up to the first failure) and return the handler's answer; reported_size makes the calls tell, seek to the end, tell, seek back, stopping at a failure except that the way back is taken even if the second tell fails, and a failing way back hides that failure. No method makes any other call, adds an error or a panic of its own (but that of 0x80000000) or swallows one.", "quantifier": "all handlers and states, all values, all points of failure, all hosts and builds", "why_tests_cant": "quantifies over all implementations of the IOHandler trait", "anchors": ["src/io/io_handler.rs: IOHandler default methods"]}
{"id": "C108", "title": "Where the curves jump", "statement": "Call a curve steady at x if the evaluator gives a number there and, close enough to x, numbers as close to it as one likes. In exact arithmetic, for every type and all parameters, the points where the curve is steady are exactly the following. Type 1: all but 0 when gamma <= 0; -1: all but 0 when gamma < 0.0001. Type 2: all but -b/a when a >= 0.0001 and gamma <= 0. Type 3 (|a| >= 0.0001): max(-b/a, 0) is excluded unless c = 0 and, for a > 0, b <= 0 and gamma > 0. Types 4 and 5: d is excluded unless the two parts meet there, and for gamma <= 0 the zero of ax+b in the power part is excluded. Type 6: the zero of ax+b is excluded for gamma <= 0 (unless a = gamma = 0). Type 7: for x > 0 the zeros of b*x^g+c are excluded (unless a, b or g is 0); for x <= 0 only whole g are real, and what happens at 0 depends on the signs of g, b, c and the parity of g. Type 8: everywhere for b > 0, else only where the powers of b are real. 108: inside the unit interval for g > 0, x < 0 for g < 0, and for whole 1/g everywhere but x = 0 (and 2) for g < 0. 109: everywhere iff k <> 0. The reverses are described in the same way (-2 jumps at 0, -3 and -6 at c, -4 and -5 where their parts miss each other, -7 where c exceeds the power of 10 unless 1/g is whole, -8 at e, -109 where its logarithm has no argument); parameters below the tolerance give constants. For the usual parameters (gamma, |a|, |c| >= 0.0001 and ad+b >= 0) -4 jumps iff 4 does, and -5 does not jump if 5 does not. The sRGB curve with its published parameters does jump, at 0.04045.", "quantifier": "all parameters, all real inputs (the comparison of types 4, 5 with their reverses: parameters in the stated ranges)", "why_tests_cant": "continuity at a point is about infinitely many inputs around it; the conditions are equivalences over all parameters", "anchors": ["src/plugins/para_curve.rs: default_eval_parametric_fn"]}
{"id": "C109", "title": "The data of every listed tag can be fetched", "statement": "For every file that opens, every tag the profile lists - and every tag search_tag finds, links followed or not - can be fetched through the handler returned by get_io_handler: seeking to the tag's offset and reading its size succeeds and delivers exactly those bytes of the file, whatever seeks, reads, tells, size queries and writes were made with the handler before; the only other answer is the operating system's own error, and only if the system fails a call. The handler never changes the file, answers every call without panicking and refuses every write.", "quantifier": "every file content, build, target, OS schedule (short transfers, interruptions, failures), history of handler calls, tag index, signature", "why_tests_cant": "Tests fetch the tags of a few well-formed profiles right after opening; the claim is about every accepted byte string, every earlier use of the handler and every way the system splits or fails the reads.", "anchors": ["src/types/profile.rs: get_io_handler, open_from_file_thr, read_header_thr, search_tag", "src/io/file_file.rs: IOHandler for File"]}
{"id": "C110", "title": "Exactly where the reverse takes a curve's value back", "statement": "Say that a type undoes x if the evaluator gives a number y for x and the reversed type gives x for y. In exact arithmetic, for all parameters, these are exactly the inputs undone. Type 1: x > 0 with |gamma| >= 0.0001 (or x = 10^22), 0 with gamma >= 0.0001, x < 0 with |gamma - 1| < 0.0001. Type 2 (gamma and |a| not tiny): x >= 0 with ax+b > 0 and a > 0; where the curve is flat only max(0, -b/a) for gamma > 0. Type 3: left of the break only 0; from it on all x with ax+b > 0, and the zero of ax+b if c > 0. Types 4 and 5 (gamma, a, c >= 0.0001): left of d the points whose line value is below the start of the power part (type 5: all), right of d those with ax+b >= 0 (type 5: whose value is not below the end of the line); for other parameters an exact description by cases. Type 6: ax+b > 0, or = 0 with gamma > 0. Type 7: x >= 0 with b*x^g+c > 0 (negative x only for g = 1). Type 8: everything for a > 0, b > 0, b <> 1; else at most 0 or the zero of cx+d. 108: [0,1] for g > 0, x < 0 and 1 for g < 0, everything for g = 1, all but 0 for g = -1. 109: only 1/2. Parameters within the tolerance leave at most one point.", "quantifier": "all parameters, all real inputs", "why_tests_cant": "round-trip tests sample a few inputs of a few curves; the claim names every input and every parameter for which the round trip works and says it fails for all others", "anchors": ["src/plugins/para_curve.rs: default_eval_parametric_fn"]}
{"id": "C111", "title": "Exactly which values a curve gives back after its reverse", "statement": "Reversing first and evaluating then: in exact arithmetic, y survives the round trip through type -n and type n exactly in these cases. In general: iff y is the value of an input that type n and -n recover (C110). Type 1: y > 0 and, for gamma > 0, y = 0 (|gamma| >= 0.0001); y < 0 iff |gamma - 1| < 0.0001. Type 2 (usable parameters): y > 0 iff a > 0 and y^(1/gamma) >= b; y = 0 iff a < 0, or gamma > 0 and b <= 0. Type 3: above c iff a > 0 and (y-c)^(1/gamma) >= b; c itself iff -b/a > 0 (or c = 0, b <= 0); 0 below c iff -b/a >= 0. Type 4 (gamma, a, c >= 0.0001): from the start of the power part on, and below it what the line reaches before d. Type 5: below the end of the line everything, from it on the y >= e with (y-e)^(1/gamma) >= ad+b. Types 4 and 5 with any other parameters: iff y is the curve's value at the point the reverse answers, which is the point of the line below the break (0 for a tiny c) and the root above it (0 for a tiny gamma or a). Type 6: y > c, and c for gamma > 0. Type 7: 10^((y-d)/a) >= c, or gamma = 1. Type 8: y > e for a > 0, b > 0, b <> 1; below e only the value at 0. 108: [0,1] for g > 0; y > 1 and 0 for g < 0; everything for g = 1. 109: only 1/2. Parameters within the tolerance leave exactly the value at the constant the reverse answers.", "quantifier": "all parameters, all real values", "why_tests_cant": "round-trip tests sample a few values; the claim lists every value and every parameter for which reversing and evaluating is the identity", "anchors": ["src/plugins/para_curve.rs: default_eval_parametric_fn"]}
{"id": "C112", "title": "Opening a profile step by step", "statement": "Reading a profile from any source - whatever the source answers, call by call - is exactly this conversation: read 128 bytes; if bytes 36-39 are not 'acsp', report BadSignature once, fail with InvalidData and ask nothing more; ask for the position, seek to the end, ask for the position, seek back (also when the second question failed, whose error is then the result unless the way back fails too); if the header's date is no real date, panic; read 4 bytes; if they are a number above 100, report Range once and fail with InvalidData; read that many 12-byte entries, panicking with overflow checks at the first whose offset + size exceeds 32 bits. Any other call that fails or panics is the last one, and its answer is the result, with nothing reported and the context as it was. When all goes well the profile is the one the delivered bytes and the told length say. At most 106 calls, none a write.", "quantifier": "all sources (any state type, any answers of the right type), build settings, contexts, error handlers; all states of the memory, disk and null handlers are covered", "why_tests_cant": "tests use well-behaved files; the claim covers every pattern of failing, panicking and changing answers, and pins the order of calls and decisions", "anchors": ["src/types/profile.rs: Profile::read_header_thr", "src/io/io_handler.rs: reported_size"]}
{"id": "C113", "title": "Every 16-bit word survives a curve and its reverse", "statement": "Take the binary64 number nearest to n/65535. With any powf good to one unit in the last place (and, for types 7 and 8, a correctly rounded log10), the curve followed by its reverse gives a number whose nearest word is n again: type 1 in either order, type 2, types 3 and 6 where ax+b >= 1/16, the sRGB curve (monotone powf), type 7 where b x^g >= 1/256, type 8, and type 108 for words from 4096 to 61439.", "quantifier": "all words (types 1, 2 and 7 without 0), all binary64 parameters in the ranges stated: gamma, a between 1/4 and 4, b and offsets at most 1 (type 7: b between 1/4 and 4; type 8: base from 2 to 16, c between 1/4 and 4; type 108: gamma between 1/2 and 2), all accurate powf and log10", "why_tests_cant": "65536 words times 2^64 and more parameters, unknown libm", "anchors": ["src/plugins/para_curve.rs: default_eval_parametric_fn"]}
{"id": "C114", "title": "Curves survive storage of their parameters as s15Fixed16", "statement": "Write the parameters of a curve with write_s15f16 and read them back: with any powf good to one unit in the last place, the gamma curve with the stored gamma is within 2^-18/g + 2^-50 of x^g and its reverse within 2^-18/g + 2^-45 of x^(1/g), and the 16-bit words of the values differ by at most one from those computed with the original gamma; types 2, 3 and 6 are within 2g+1 and 2g+2 half steps (2^-17) of their formula with the original parameters.", "quantifier": "all binary64 gamma between 1/4 and 16 and x between 2^-16 and 1 (type 1, -1); all gamma between 1 and 4, a between 1/4 and 1, b >= 0 with a + b <= 1, |c| <= 1, x in [0,1] with ax+b >= 1/256; all environments; all accurate powf", "why_tests_cant": "2^128 and more combinations, unknown libm", "anchors": ["src/io/io_handler.rs: read_s15f16", "src/io/io_handler.rs: write_s15f16", "src/plugins/para_curve.rs: default_eval_parametric_fn"]}
{"id": "C115", "title": "Direction of every curve and reverse, exact arithmetic", "statement": "In exact arithmetic, default_eval_parametric_fn is strictly monotone on the domain of each type, with the direction given by the signs of its parameters: types 1-3 and their reverses by gamma, type 6 by gamma*a, type 7 by gamma*a*b, type 8 by a*c*ln b and its reverse by c*ln b; types 4 and 5 go by gamma*a and by c on their parts and, these positive, rise as a whole exactly if they do not step down at the break; the reverse of type 6 goes by a, those of 4, 5, 7, 108 and 109 rise. A type 4 curve that steps down at the break need not be monotone.", "quantifier": "all real parameters satisfying the stated sign conditions, all pairs of real inputs in the domain", "why_tests_cant": "a statement about all pairs of real inputs and all parameters", "anchors": ["src/plugins/para_curve.rs: default_eval_parametric_fn"]}
{"id": "C116", "title": "Error texts tell what went wrong", "statement": "If two calls of init_plugin fail with the same text, the first plug-in at fault in each chain has the same fault: no plug-in magic, the same needed version, or the same unknown type. If opening two files for reading (also on machines of different byte order) reports the same text, both files lack the profile signature or both declare the same number of tags, over 100. A text reported when opening a file is never one init_plugin fails with. A plug-in or file has at most one fault.", "quantifier": "all plug-in chains, contexts, worlds that quote strings as std does, files, read schedules, environments", "why_tests_cant": "a statement about all pairs of failing calls", "anchors": ["src/state/context.rs: init_plugin", "src/types/profile.rs: read_header"]}
