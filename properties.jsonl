{"id": "C01", "title": "One-shot MD5 is the standard MD5", "statement": "libhmac_md5_calculate(buffer,size,hash,hash_size) returning 1 leaves in hash exactly the RFC 1321 digest of the size bytes that were in buffer when the call started; and with valid arguments it does return 1 unless memory allocation fails. No bound on the message length is needed because the RFC itself keeps only the low 64 bits of the length.", "quantifier": "every byte string of every length the API accepts, every content of the uninitialised memory the library allocates, both build variants (unrolled and looped), 32-bit and 64-bit size_t", "why_tests_cant": "The set of messages is infinite and padding/blocking depends on the length modulo the block size and on every message bit; test vectors sample a handful of points.", "anchors": ["libhmac/libhmac_md5.c:libhmac_md5_calculate", "libhmac/libhmac_md5_context.c:libhmac_md5_context_transform", "libhmac/libhmac_md5_context.c:libhmac_md5_context_update", "libhmac/libhmac_md5_context.c:libhmac_md5_context_finalize"]}
{"id": "C02", "title": "One-shot SHA1 is the standard SHA1", "statement": "libhmac_sha1_calculate(buffer,size,hash,hash_size) returning 1 leaves in hash exactly the FIPS 180-4 SHA-1 digest of the size bytes that were in buffer when the call started (for messages shorter than 2^61 bytes, the domain of the standard); and with valid arguments it does return 1 unless memory allocation fails. ", "quantifier": "every byte string of every length the API accepts, every content of the uninitialised memory the library allocates, both build variants (unrolled and looped), 32-bit and 64-bit size_t", "why_tests_cant": "The set of messages is infinite and padding/blocking depends on the length modulo the block size and on every message bit; test vectors sample a handful of points.", "anchors": ["libhmac/libhmac_sha1.c:libhmac_sha1_calculate", "libhmac/libhmac_sha1_context.c:libhmac_sha1_context_transform", "libhmac/libhmac_sha1_context.c:libhmac_sha1_context_update", "libhmac/libhmac_sha1_context.c:libhmac_sha1_context_finalize"]}
{"id": "C03", "title": "One-shot SHA224 is the standard SHA224", "statement": "libhmac_sha224_calculate(buffer,size,hash,hash_size) returning 1 leaves in hash exactly the FIPS 180-4 SHA-224 digest of the size bytes that were in buffer when the call started (for messages shorter than 2^61 bytes, the domain of the standard); and with valid arguments it does return 1 unless memory allocation fails. ", "quantifier": "every byte string of every length the API accepts, every content of the uninitialised memory the library allocates, both build variants (unrolled and looped), 32-bit and 64-bit size_t", "why_tests_cant": "The set of messages is infinite and padding/blocking depends on the length modulo the block size and on every message bit; test vectors sample a handful of points.", "anchors": ["libhmac/libhmac_sha224.c:libhmac_sha224_calculate", "libhmac/libhmac_sha224_context.c:libhmac_sha224_context_transform", "libhmac/libhmac_sha224_context.c:libhmac_sha224_context_update", "libhmac/libhmac_sha224_context.c:libhmac_sha224_context_finalize"]}
{"id": "C04", "title": "One-shot SHA256 is the standard SHA256", "statement": "libhmac_sha256_calculate(buffer,size,hash,hash_size) returning 1 leaves in hash exactly the FIPS 180-4 SHA-256 digest of the size bytes that were in buffer when the call started (for messages shorter than 2^61 bytes, the domain of the standard); and with valid arguments it does return 1 unless memory allocation fails. ", "quantifier": "every byte string of every length the API accepts, every content of the uninitialised memory the library allocates, both build variants (unrolled and looped), 32-bit and 64-bit size_t", "why_tests_cant": "The set of messages is infinite and padding/blocking depends on the length modulo the block size and on every message bit; test vectors sample a handful of points.", "anchors": ["libhmac/libhmac_sha256.c:libhmac_sha256_calculate", "libhmac/libhmac_sha256_context.c:libhmac_sha256_context_transform", "libhmac/libhmac_sha256_context.c:libhmac_sha256_context_update", "libhmac/libhmac_sha256_context.c:libhmac_sha256_context_finalize"]}
{"id": "C05", "title": "One-shot SHA512 is the standard SHA512", "statement": "libhmac_sha512_calculate(buffer,size,hash,hash_size) returning 1 leaves in hash exactly the FIPS 180-4 SHA-512 digest of the size bytes that were in buffer when the call started, for every message in the domain of the standard (shorter than 2^125 bytes); and with valid arguments it does return 1 unless memory allocation fails. ", "quantifier": "every byte string of every length the API accepts, every content of the uninitialised memory the library allocates, both build variants (unrolled and looped), 32-bit and 64-bit size_t", "why_tests_cant": "The set of messages is infinite and padding/blocking depends on the length modulo the block size and on every message bit; test vectors sample a handful of points.", "anchors": ["libhmac/libhmac_sha512.c:libhmac_sha512_calculate", "libhmac/libhmac_sha512_context.c:libhmac_sha512_context_transform", "libhmac/libhmac_sha512_context.c:libhmac_sha512_context_update", "libhmac/libhmac_sha512_context.c:libhmac_sha512_context_finalize"]}
{"id": "C06", "title": "One-shot HMAC is RFC 2104", "statement": "For each of the five algorithms, libhmac_X_calculate_hmac(key,key_size,buffer,size,hmac,hmac_size) returning 1 leaves in hmac exactly the RFC 2104 HMAC of the message bytes under the key bytes (keys longer than the block are hashed first, shorter ones are zero padded), and with valid arguments it does return 1 unless memory allocation fails.", "quantifier": "all keys of every length, all messages, all five algorithms, both build variants, both platforms, all contents of freshly allocated memory", "why_tests_cant": "Needs all key lengths around and beyond the block size combined with all messages; RFC test vectors cover seven pairs.", "anchors": ["libhmac/libhmac_md5.c:libhmac_md5_calculate_hmac", "libhmac/libhmac_sha1.c:libhmac_sha1_calculate_hmac", "libhmac/libhmac_sha224.c:libhmac_sha224_calculate_hmac", "libhmac/libhmac_sha256.c:libhmac_sha256_calculate_hmac", "libhmac/libhmac_sha512.c:libhmac_sha512_calculate_hmac"]}
{"id": "C07", "title": "The digest does not depend on how the data is split over update calls", "statement": "For a fresh context, any sequence of update calls followed by finalize produces the digest of the concatenation of the updated data, so two sequences with the same concatenation produce the same digest, equal to the one-shot digest.", "quantifier": "all sequences of update calls of any number and sizes (including empty ones), all data, all algorithms", "why_tests_cant": "The number of ways to split a message is exponential and the number of calls is unbounded; carry-over of partial blocks makes every split a different path.", "anchors": ["libhmac/libhmac_md5_context.c:libhmac_md5_context_update", "libhmac/libhmac_sha512_context.c:libhmac_sha512_context_update"]}
{"id": "C08", "title": "Unrolled and looped builds compute the same thing", "statement": "Building with or without the loop unrolling option gives libraries whose calls return the same codes and write the same bytes.", "quantifier": "all API calls of the five algorithms, all arguments and states", "why_tests_cant": "A binary contains one of the two variants; equality for all 2^512 (2^1024) blocks and chaining values is not testable.", "anchors": ["libhmac/libhmac_definitions.h.in:LIBHMAC_UNFOLLED_LOOPS", "libhmac/libhmac_md5_context.c:libhmac_md5_context_transform", "libhmac/libhmac_sha1_context.c:libhmac_sha1_context_transform", "libhmac/libhmac_sha256_context.c:libhmac_sha256_context_transform", "libhmac/libhmac_sha512_context.c:libhmac_sha512_context_transform"]}
{"id": "C09", "title": "No undefined behaviour in any history of context calls", "statement": "Starting from any memory, every finite sequence of initialize, update, finalize and free calls on any number of contexts, with NULL or valid pointers and any sizes no larger than the real buffers, executes without out-of-bounds access, use after free, double free or wild pointer dereference.", "quantifier": "all finite histories of calls over all five algorithms, all argument values allowed by the buffer-validity precondition, all allocation failure patterns", "why_tests_cant": "Unbounded histories; sanitizers only observe the executed ones.", "anchors": ["libhmac/libhmac_md5_context.c", "libhmac/libhmac_sha1_context.c", "libhmac/libhmac_sha224_context.c", "libhmac/libhmac_sha256_context.c", "libhmac/libhmac_sha512_context.c"]}
{"id": "C10", "title": "Exactly which calls are rejected", "statement": "update fails (-1) exactly when the context or buffer is NULL or size exceeds SSIZE_MAX; finalize fails exactly when the context or hash is NULL, hash_size is smaller than the digest or exceeds SSIZE_MAX; initialize fails exactly when its argument is NULL, already refers to a context, or memory runs out; free fails exactly when its argument is NULL. All other calls succeed.", "quantifier": "all arguments, all reachable context states, all platforms", "why_tests_cant": "The 'exactly' direction (never fails otherwise) quantifies over all states and sizes.", "anchors": ["libhmac/libhmac_md5_context.c:libhmac_md5_context_update", "libhmac/libhmac_md5_context.c:libhmac_md5_context_finalize", "libhmac/libhmac_md5_context.c:libhmac_md5_context_initialize", "libhmac/libhmac_md5_context.c:libhmac_md5_context_free"]}
{"id": "C11", "title": "A rejected call changes nothing", "statement": "When update or finalize of a context returns -1 because of its arguments, the context, the output buffer and all other memory are as before the call, so the caller can retry and obtain the same digest as if the failing call had never happened.", "quantifier": "all rejected calls at any point of any history", "why_tests_cant": "Must hold at every point of every history; unit tests check return codes of a few failing calls only.", "anchors": ["libhmac/libhmac_md5_context.c:libhmac_md5_context_update", "libhmac/libhmac_md5_context.c:libhmac_md5_context_finalize"]}
{"id": "C12", "title": "Error object is filled exactly on failure", "statement": "Every public hash function returns 1 or -1; when it returns -1 at least one entry was added to the error object (if one was passed) and when it returns 1 none was.", "quantifier": "all public functions of the five algorithms, all arguments, all allocation failure patterns", "why_tests_cant": "Requires every path, including those reachable only through particular allocation failures.", "anchors": ["libhmac/libhmac_md5.c", "libhmac/libhmac_md5_context.c"]}
{"id": "C13", "title": "Only the digest bytes of the output buffer are written", "statement": "A successful finalize, calculate or calculate_hmac changes only the first HASH_SIZE bytes of the output buffer; bytes beyond, other buffers and other contexts are unchanged.", "quantifier": "all memories, all buffers, all sizes of the output buffer", "why_tests_cant": "Frame properties quantify over all the rest of memory.", "anchors": ["libhmac/libhmac_md5_context.c:libhmac_md5_context_finalize", "libhmac/libhmac_md5.c:libhmac_md5_calculate", "libhmac/libhmac_md5.c:libhmac_md5_calculate_hmac"]}
{"id": "C14", "title": "Output may overlap the inputs", "statement": "calculate and calculate_hmac give the digest of the original key and message even if the output buffer overlaps the message or the key (in-place use).", "quantifier": "all overlaps of key, message and output ranges in memory", "why_tests_cant": "All relative positions of three buffers of any length.", "anchors": ["libhmac/libhmac_md5.c:libhmac_md5_calculate", "libhmac/libhmac_md5.c:libhmac_md5_calculate_hmac"]}
{"id": "C15", "title": "No memory leak on any path", "statement": "calculate and calculate_hmac release everything they allocate, whatever they return; initialize followed by free leaves no live allocation; a failing initialize leaves no live allocation.", "quantifier": "all arguments and every pattern of allocation failures", "why_tests_cant": "There are exponentially many failure patterns and each takes a different clean-up path.", "anchors": ["libhmac/libhmac_md5.c:libhmac_md5_calculate", "libhmac/libhmac_md5.c:libhmac_md5_calculate_hmac", "libhmac/libhmac_md5_context.c:libhmac_md5_context_initialize"]}
{"id": "C16", "title": "Allocation failure is reported, never a wrong answer", "statement": "If any allocation performed by calculate or calculate_hmac fails the call returns -1; it returns 1 only with the right digest in place.", "quantifier": "every pattern of allocation failures, all arguments", "why_tests_cant": "Every allocation can fail independently; also the claim concerns all inputs.", "anchors": ["libhmac/libhmac_md5.c:libhmac_md5_calculate_hmac"]}
{"id": "C17", "title": "A failing HMAC call does not disclose intermediate values", "statement": "When calculate_hmac returns -1 the output buffer is unchanged (in particular it does not contain the inner hash).", "quantifier": "all failing calls, every pattern of allocation failures", "why_tests_cant": "Needs failure injection at every allocation for all inputs.", "anchors": ["libhmac/libhmac_md5.c:libhmac_md5_calculate_hmac"]}
{"id": "C18", "title": "HMAC clears key material on the heap", "statement": "When calculate_hmac returns, every heap block it used for the (padded) key or the pads was overwritten with zeros before being freed, whatever the return value.", "quantifier": "all keys, messages, return paths and allocation failure patterns", "why_tests_cant": "Freed memory is not observable to a test and the paths depend on failure patterns.", "anchors": ["libhmac/libhmac_md5.c:libhmac_md5_calculate_hmac"]}
{"id": "C19", "title": "HMAC leaves no keyed state in freed contexts", "statement": "When calculate_hmac returns, every hash context it used was overwritten with zeros before being freed.", "quantifier": "all keys, messages and return paths", "why_tests_cant": "Freed memory is not observable to a test and failing paths need particular arguments.", "anchors": ["libhmac/libhmac_md5.c:libhmac_md5_calculate_hmac", "libhmac/libhmac_md5_context.c:libhmac_md5_context_free"]}
{"id": "C20", "title": "Block processing leaves no message data in its scratch arrays", "statement": "When any update or finalize returns, the local arrays used by block processing hold no message-derived words (they have been cleared).", "quantifier": "all messages, chaining values, algorithms, build variants", "why_tests_cant": "Stack residue is not observable from a unit test.", "anchors": ["libhmac/libhmac_md5_context.c:libhmac_md5_context_transform", "libhmac/libhmac_sha1_context.c:libhmac_sha1_context_transform", "libhmac/libhmac_sha224_context.c:libhmac_sha224_context_transform", "libhmac/libhmac_sha256_context.c:libhmac_sha256_context_transform", "libhmac/libhmac_sha512_context.c:libhmac_sha512_context_transform"]}
{"id": "C21", "title": "HMAC clears the hashed long key on the stack", "statement": "When calculate_hmac returns, the local array that held the digest of a key longer than the block has been cleared.", "quantifier": "all keys longer than the block, all messages", "why_tests_cant": "Stack residue is not observable from a unit test.", "anchors": ["libhmac/libhmac_md5.c:libhmac_md5_calculate_hmac"]}
{"id": "C22", "title": "finalize erases the context", "statement": "After a successful finalize nothing derived from the hashed data remains in the context: its whole memory is zero.", "quantifier": "all histories before finalize, all algorithms", "why_tests_cant": "Needs all histories; the context is opaque to callers.", "anchors": ["libhmac/libhmac_md5_context.c:libhmac_md5_context_finalize"]}
{"id": "C23", "title": "A finalized context cannot silently produce a wrong digest", "statement": "After a successful finalize, further update/finalize calls on the same context either fail or behave as on a freshly initialized context.", "quantifier": "all histories that continue after finalize", "why_tests_cant": "Unbounded histories.", "anchors": ["libhmac/libhmac_md5_context.c:libhmac_md5_context_finalize", "libhmac/libhmac_md5_context.c:libhmac_md5_context_update"]}
{"id": "C24", "title": "Contexts are independent", "statement": "Interleaving calls on several contexts in any order gives for each context the same digest as running its calls alone.", "quantifier": "all interleavings of any number of contexts of any algorithms", "why_tests_cant": "The number of interleavings is combinatorial and contexts are unbounded in number.", "anchors": ["libhmac/libhmac_md5_context.c", "libhmac/libhmac_sha256_context.c"]}
{"id": "C25", "title": "Life cycle of a context pointer", "statement": "initialize only writes the caller's pointer on success and then it refers to a fresh context; it refuses to overwrite a non-NULL pointer; free resets the pointer to NULL and freeing a NULL pointer succeeds without effect, so a repeated free is harmless.", "quantifier": "all states of the caller's pointer, all memories and allocation failures", "why_tests_cant": "Frame conditions over all memory and all failure patterns.", "anchors": ["libhmac/libhmac_md5_context.c:libhmac_md5_context_initialize", "libhmac/libhmac_md5_context.c:libhmac_md5_context_free", "libhmac/libhmac_md5.c:libhmac_md5_initialize", "libhmac/libhmac_md5.c:libhmac_md5_free"]}
{"id": "C26", "title": "The short and the context-named APIs agree", "statement": "libhmac_X_initialize/update/finalize/free behave as libhmac_X_context_initialize/update/finalize/free: same return code, same effect on memory, and on failure one extra error entry.", "quantifier": "all arguments and states of all five algorithms", "why_tests_cant": "Equality of functions on all inputs.", "anchors": ["libhmac/libhmac_md5.c:libhmac_md5_initialize", "libhmac/libhmac_md5.c:libhmac_md5_update", "libhmac/libhmac_md5.c:libhmac_md5_finalize", "libhmac/libhmac_md5.c:libhmac_md5_free"]}
{"id": "C27", "title": "Message length accounting never goes wrong", "statement": "After updates totalling n bytes the bit length put in the final block is 8n modulo 2^64, however large n is and however it was split; in particular digests of streams longer than any single buffer are right (MD5 for all n; SHA-1/224/256 for n < 2^61).", "quantifier": "all total lengths, including those above 2^32 and 2^61 bytes, and all splits", "why_tests_cant": "Streams beyond 2^32 bytes are impractical and beyond 2^61 impossible to run.", "anchors": ["libhmac/libhmac_md5_context.c:libhmac_md5_context_finalize", "libhmac/libhmac_sha1_context.c:libhmac_sha1_context_finalize"]}
{"id": "C28", "title": "HMAC key normalisation", "statement": "A key no longer than the block and the same key with zero bytes appended up to the block size give the same HMAC; a key longer than the block gives the same HMAC as its digest used as key.", "quantifier": "all keys, messages and algorithms", "why_tests_cant": "All keys and lengths.", "anchors": ["libhmac/libhmac_md5.c:libhmac_md5_calculate_hmac"]}
{"id": "C29", "title": "Table constants are the standards' ones", "statement": "The constant tables are what the standards define: the sines (MD5), the square and cube roots of primes (SHA-2), the MD5/SHA-1 start values.", "quantifier": "all table entries against their mathematical definition over the real numbers / integers", "why_tests_cant": "A unit test can only compare with another copy of the table.", "anchors": ["libhmac/libhmac_md5_context.c:libhmac_md5_context_sines", "libhmac/libhmac_sha224_context.c:libhmac_sha224_context_prime_square_roots", "libhmac/libhmac_sha256_context.c:libhmac_sha256_context_prime_cube_roots", "libhmac/libhmac_sha512_context.c:libhmac_sha512_context_prime_cube_roots"]}
{"id": "C30", "title": "Byte order conversion is lossless", "statement": "The byte-order helpers used to read message words and write digests and lengths are inverse to each other and store most (least) significant byte first for big (little) endian, for 16 to 64-bit values.", "quantifier": "all byte sequences and all values of each width", "why_tests_cant": "2^64 values.", "anchors": ["common/byte_stream.h", "libhmac/libhmac_byte_stream.h"]}
{"id": "C31", "title": "Digest to text", "statement": "digest_hash_copy_to_string writes exactly the two-digit lower-case hexadecimal of each digest byte followed by an end-of-string, nothing else, fails without writing when the string is too small, and different digests give different strings.", "quantifier": "all byte strings, all string sizes", "why_tests_cant": "All digests and sizes; injectivity is a universally quantified statement.", "anchors": ["hmactools/digest_hash.c:digest_hash_copy_to_string"]}
{"id": "C32", "title": "Human readable size formatting always fits and is faithful", "statement": "byte_size_string_create with 1000 or 1024 units succeeds for every 64-bit size with a buffer of 9 characters or more, the result is end-of-string terminated and denotes the size rounded down to the printed precision.", "quantifier": "all 2^64 sizes and both unit systems, all buffer lengths", "why_tests_cant": "2^64 sizes.", "anchors": ["hmactools/byte_size_string.c:byte_size_string_create"]}
{"id": "C33", "title": "Size parsing accepts what users write and never wraps", "statement": "byte_size_string_convert accepts <number>[<k|m|g|t|p|e>[i]B] in either case, returns number times the multiplier, and fails when that exceeds 64 bits.", "quantifier": "all strings", "why_tests_cant": "All strings; overflow cases.", "anchors": ["hmactools/byte_size_string.c:byte_size_string_convert"]}
{"id": "C34", "title": "Formatted sizes can be parsed back", "statement": "Every string produced by byte_size_string_create is accepted by byte_size_string_convert.", "quantifier": "all 2^64 sizes and both unit systems", "why_tests_cant": "2^64 sizes.", "anchors": ["hmactools/byte_size_string.c:byte_size_string_create", "hmactools/byte_size_string.c:byte_size_string_convert"]}
{"id": "C35", "title": "hmacsum's digests are those of the file", "statement": "When sum processing of an input succeeds without abort, each calculated digest string is the lower-case hexadecimal digest of the whole input, independent of the process buffer size and of how many bytes each read returned.", "quantifier": "all inputs, all buffer sizes, all schedules of short reads", "why_tests_cant": "The read schedule is chosen by the operating system and unbounded.", "anchors": ["hmactools/sum_handle.c:sum_handle_process_input", "hmactools/sum_handle.c:sum_handle_read_buffer", "hmactools/sum_handle.c:sum_handle_update_integrity_hash", "hmactools/sum_handle.c:sum_handle_finalize_integrity_hash"]}
{"id": "C36", "title": "Read errors and truncated input are never reported as success", "statement": "If a read fails or the input ends before the size reported when it was opened, processing returns -1 and no digest string is set.", "quantifier": "all schedules of read results", "why_tests_cant": "Unbounded schedules with failures at every position.", "anchors": ["hmactools/sum_handle.c:sum_handle_process_input"]}
{"id": "C37", "title": "Processing terminates", "statement": "Processing an input performs at most as many reads as the input has bytes plus one, for any schedule of short reads.", "quantifier": "all inputs, buffer sizes, read schedules", "why_tests_cant": "Termination is not testable.", "anchors": ["hmactools/sum_handle.c:sum_handle_process_input"]}
{"id": "C38", "title": "An abort is never reported as a digest of the file", "statement": "If an abort is signalled while an input is being processed, no digest of a partial input is presented as the digest of the input.", "quantifier": "all points at which the signal may arrive", "why_tests_cant": "The signal may arrive at any of unboundedly many points.", "anchors": ["hmactools/sum_handle.c:sum_handle_signal_abort", "hmactools/sum_handle.c:sum_handle_process_input", "hmactools/hmacsum.c:main"]}
{"id": "C39", "title": "A sum handle can process several inputs", "statement": "Processing a second input with the same handle after closing the first gives the digests of the second input.", "quantifier": "all pairs of inputs", "why_tests_cant": "All inputs; a sequence property.", "anchors": ["hmactools/sum_handle.c:sum_handle_process_input", "hmactools/sum_handle.c:sum_handle_initialize_integrity_hash"]}
{"id": "C40", "title": "Digest type selection", "statement": "sum_handle_set_digest_types selects exactly the algorithms named in the comma separated list, independent of order and repetition, and reports unknown names.", "quantifier": "all strings", "why_tests_cant": "All strings.", "anchors": ["hmactools/sum_handle.c:sum_handle_set_digest_types"]}
{"id": "C41", "title": "Process buffer size setting", "statement": "sum_handle_set_process_buffer_size either stores exactly the requested size or reports it as unsupported, for every string.", "quantifier": "all strings", "why_tests_cant": "All strings.", "anchors": ["hmactools/sum_handle.c:sum_handle_set_process_buffer_size"]}
{"id": "C42", "title": "Sum handle resources", "statement": "sum_handle_initialize releases everything when it fails and sum_handle_free releases everything the handle owns, for any allocation failure pattern.", "quantifier": "every pattern of allocation failures", "why_tests_cant": "Exponentially many failure patterns.", "anchors": ["hmactools/sum_handle.c:sum_handle_initialize", "hmactools/sum_handle.c:sum_handle_free"]}
{"id": "C43", "title": "Option parsing is safe and makes progress", "statement": "The bundled getopt never reads outside the argument strings and repeated calls end with -1 after finitely many steps, returning for each option in order its letter and argument.", "quantifier": "all argument vectors", "why_tests_cant": "All argument vectors.", "anchors": ["hmactools/hmactools_getopt.c:hmactools_getopt"]}
{"id": "C44", "title": "HMAC and hash control flow does not depend on secret data", "statement": "The sequence of block-processing operations, memory areas touched and branches taken by calculate and calculate_hmac depends only on sizes and allocation results, not on the bytes of the key or message.", "quantifier": "all pairs of keys and messages of equal sizes", "why_tests_cant": "Relates two runs on all pairs of secrets.", "anchors": ["libhmac/libhmac_md5.c:libhmac_md5_calculate_hmac", "libhmac/libhmac_md5_context.c:libhmac_md5_context_update"]}
{"id": "C45", "title": "Library built on an external crypto provider gives the same answers", "statement": "When the library is built on top of OpenSSL's streaming digest (EVP) and that provider meets its documented contract, calculate and calculate_hmac give the same digests as the built-in implementation.", "quantifier": "all inputs and all providers meeting the contract", "why_tests_cant": "Needs all inputs and all providers.", "anchors": ["libhmac/libhmac_md5_context.c:libhmac_md5_context_update (EVP variant)", "libhmac/libhmac_md5.c:libhmac_md5_calculate_hmac"]}
{"id": "C46", "title": "Python contexts used from several threads", "statement": "The Python binding releases the interpreter lock during update; concurrent updates of one context object behave like some sequential order of those updates.", "quantifier": "all thread schedules", "why_tests_cant": "Schedules are chosen by the operating system.", "anchors": ["pyhmac/pyhmac_md5_context.c:pyhmac_md5_context_update"]}
{"id": "C47", "title": "Python object life cycle", "statement": "Creating, re-initialising (calling __init__ again) and destroying a Python context object releases every underlying library context, and reference counts stay balanced across calculate calls.", "quantifier": "all sequences of object operations, all allocation failures", "why_tests_cant": "Unbounded histories.", "anchors": ["pyhmac/pyhmac_md5_context.c:pyhmac_md5_context_init", "pyhmac/pyhmac_md5_context.c:pyhmac_md5_context_free", "pyhmac/pyhmac_md5.c:pyhmac_md5_calculate"]}
{"id": "C48", "title": "Bit rotation macros rotate", "statement": "The bit rotation macros give the rotation of the standards for each of the four widths, including 8 and 16 bits where the operand is promoted to int, and left and right rotation undo each other.", "quantifier": "all values of each width, all shift counts from 1 to the width minus 1", "why_tests_cant": "2^64 values times 63 counts.", "anchors": ["common/byte_stream.h:byte_stream_bit_rotate_left_8bit", "common/byte_stream.h:byte_stream_bit_rotate_right_64bit"]}
{"id": "C49", "title": "The Python functions return the digests of the standards", "statement": "md5_calculate and the like return the digest of the data as the standard defines it, md5_calculate_hmac the HMAC, and a context object the digest of everything given to update, however it was cut into pieces; the only other outcome for bytes arguments is an exception after a failed allocation.", "quantifier": "all data, keys, sizes and splits into pieces, all allocation failures", "why_tests_cant": "Unbounded inputs, splits and failure patterns.", "anchors": ["pyhmac/pyhmac_md5.c:pyhmac_md5_calculate", "pyhmac/pyhmac_md5.c:pyhmac_md5_calculate_hmac", "pyhmac/pyhmac_md5_context.c:pyhmac_md5_context_update", "pyhmac/pyhmac_md5_context.c:pyhmac_md5_context_finalize"]}
{"id": "C50", "title": "Equal digests come from equal messages or from the compression function", "statement": "If two one-shot digest calls of the same algorithm succeed with the same digest, the messages are the same, or the two computations contain two different inputs of the compression function with the same result (for SHA-224 at the end: the same seven words), or the lengths differ by a multiple of 2^61 bytes and the start value came again. Padding, block handling and output never make two messages the same.", "quantifier": "all pairs of messages, memories, builds and platforms; all five algorithms", "why_tests_cant": "A defect in padding or in the handling of block borders shows only for rare pairs of messages.", "anchors": ["libhmac/libhmac_md5.c:libhmac_md5_calculate", "libhmac/libhmac_md5_context.c:libhmac_md5_context_finalize", "libhmac/libhmac_sha224_context.c:libhmac_sha224_context_finalize", "libhmac/libhmac_sha512_context.c:libhmac_sha512_context_finalize"]}
{"id": "C51", "title": "Equal HMACs come from equal keys and messages or from the hash function", "statement": "If two HMAC calls of the same algorithm succeed with the same result, the keys become the same key block and the messages are the same, or the outer or the inner hash inputs, which differ, collide as in C50. Keys become the same block only if they differ in zeros at the end, if one is the digest of the other (up to zeros at the end), or if two long keys collide.", "quantifier": "all pairs of keys and messages, memories, builds and platforms; all five algorithms", "why_tests_cant": "It is a statement about all pairs of inputs.", "anchors": ["libhmac/libhmac_md5.c:libhmac_md5_calculate_hmac", "libhmac/libhmac_sha1.c:libhmac_sha1_calculate_hmac", "libhmac/libhmac_sha224.c:libhmac_sha224_calculate_hmac", "libhmac/libhmac_sha256.c:libhmac_sha256_calculate_hmac", "libhmac/libhmac_sha512.c:libhmac_sha512_calculate_hmac"]}
{"id": "C52", "title": "Exceptions say what went wrong, on one line, and keep nothing", "statement": "pyhmac_error_raise sets an exception of the class asked for whose text is the message and the backtrace of the library's error put on one line; pyhmac_error_fetch and pyhmac_error_fetch_and_raise put the text of the pending exception behind the message. No write goes outside the local arrays, no reference is kept. (False: the two fetching functions keep the references of PyErr_Fetch, fetch_and_raise also the bytes object, and a NULL from PyObject_Repr is passed on.)", "quantifier": "all messages, backtraces (terminated or not, of any length), exceptions, former contents of the local arrays", "why_tests_cant": "Truncation and termination matter for every length around the array size and every place of a line end; leaked references are not visible in a test's result.", "anchors": ["pyhmac/pyhmac_error.c:pyhmac_error_raise", "pyhmac/pyhmac_error.c:pyhmac_error_fetch", "pyhmac/pyhmac_error.c:pyhmac_error_fetch_and_raise"]}
{"id": "C53", "title": "The module pyhmac has the functions it names, taking their arguments in every form", "statement": "The functions of the module are get_version and X_calculate, X_calculate_hmac for the five algorithms, and each gives the digest of its own algorithm; data and key may be given by position or by keyword in any order, all other arguments give a TypeError and no other effect; context objects have update and finalize. Initialisation returns the module exactly if it and all types could be made, with one reference handled and the interpreter lock given back. (False: on failure a reference to the module is kept.)", "quantifier": "all names, argument tuples and keyword dictionaries, all data, all failures of the interpreter's functions", "why_tests_cant": "Eleven functions times unboundedly many argument lists; a wrong row in a table is noticed only by the test of that row.", "anchors": ["pyhmac/pyhmac.c:PyInit_pyhmac", "pyhmac/pyhmac.c:pyhmac_get_version", "pyhmac/pyhmac_md5.c:pyhmac_md5_calculate", "pyhmac/pyhmac_md5_context.c:pyhmac_md5_context_object_methods"]}
{"id": "C54", "title": "A signal at any moment stops hmacsum safely", "statement": "Whenever a signal arrives, hmacsum accesses no freed handle, and ends with EXIT_SUCCESS only if every call worked and no signal was handled. (False: after an error, or if the handler cannot be detached, the handle is freed while the handler may still use it.)", "quantifier": "all moments and numbers of signals, all outcomes of the calls of main", "why_tests_cant": "The dangerous moment is a window of a few instructions.", "anchors": ["hmactools/hmacsum.c:main", "hmactools/hmacsum.c:hmacsum_signal_handler", "hmactools/hmactools_signal.c:hmactools_signal_attach"]}
{"id": "C55", "title": "The fuzz targets survive every input and hash all of it", "statement": "LLVMFuzzerTestOneInput of the five targets returns 0 for every sequence of inputs, including NULL, without an access outside its memory, without leaving anything allocated and without changing the engine's memory; unless the allocation fails, the whole input is hashed.", "quantifier": "all sequences of inputs of any size, all allocation failures", "why_tests_cant": "A fuzzer itself tries finitely many inputs, and cannot notice that an input was not hashed because results are ignored.", "anchors": ["ossfuzz/md5_context_fuzzer.cc:LLVMFuzzerTestOneInput", "ossfuzz/sha1_context_fuzzer.cc:LLVMFuzzerTestOneInput", "ossfuzz/sha224_context_fuzzer.cc:LLVMFuzzerTestOneInput", "ossfuzz/sha256_context_fuzzer.cc:LLVMFuzzerTestOneInput", "ossfuzz/sha512_context_fuzzer.cc:LLVMFuzzerTestOneInput"]}
{"id": "C56", "title": "A refused call reports the reason", "statement": "A call that fails adds to the error object exactly the entries for the first reason it has in a fixed order: a NULL argument, an argument that is too large or too small, an object already set, an allocation that failed; functions that call others add one entry of their own after it. A call that succeeds adds nothing. Nothing else decides the entries.", "quantifier": "all functions of the library and the text functions of hmactools, all arguments, all memories, all patterns of allocation failures", "why_tests_cant": "Tests check that a call fails, not why, and combinations of several reasons with allocation failures are many.", "anchors": ["libhmac/libhmac_md5_context.c:libhmac_md5_context_initialize", "libhmac/libhmac_md5_context.c:libhmac_md5_context_update", "libhmac/libhmac_md5_context.c:libhmac_md5_context_finalize", "libhmac/libhmac_md5.c:libhmac_md5_calculate", "libhmac/libhmac_md5.c:libhmac_md5_calculate_hmac", "hmactools/digest_hash.c:digest_hash_copy_to_string", "hmactools/byte_size_string.c:byte_size_string_create", "hmactools/byte_size_string.c:byte_size_string_convert"]}
{"id": "C57", "title": "Memory use does not grow with the data", "statement": "Update, finalize and free allocate nothing; initialize and calculate allocate one context; calculate_hmac allocates three arrays of one block and two contexts, and one context more when the key is longer than a block. No other memory is requested, whatever the lengths of key and data.", "quantifier": "all algorithms, all lengths, all memories, all patterns of allocation failures", "why_tests_cant": "A bound for all lengths cannot be measured.", "anchors": ["libhmac/libhmac_md5_context.c:libhmac_md5_context_initialize", "libhmac/libhmac_md5.c:libhmac_md5_calculate", "libhmac/libhmac_md5.c:libhmac_md5_calculate_hmac"]}
{"id": "C58", "title": "hmacsum reports the reason for a failure", "statement": "Each function of the sum handle that fails adds to the error object exactly the entries for the first reason it has, in the order in which the work is done: for a hash run the buffer, the contexts in their order, then the reads, where a read that fails adds two entries and a read that gives no data adds one. The functions that prepare, feed and end the digests, called by themselves, report a missing handle, buffer, context or string. A function that succeeds adds nothing. hmacsum never ends with a failure code without having printed that it was aborted or having an error to print, and has no error when it ends with code 0. A run allocates one buffer and one context for each digest and nothing else.", "quantifier": "all handles, inputs, sizes, selections, patterns of read results and of allocation failures, signals at any point", "why_tests_cant": "Read failures at each position combined with allocation failures cannot be enumerated.", "anchors": ["hmactools/sum_handle.c:sum_handle_initialize", "hmactools/sum_handle.c:sum_handle_free", "hmactools/sum_handle.c:sum_handle_signal_abort", "hmactools/sum_handle.c:sum_handle_open_input", "hmactools/sum_handle.c:sum_handle_process_input", "hmactools/sum_handle.c:sum_handle_read_buffer", "hmactools/sum_handle.c:sum_handle_set_digest_types", "hmactools/sum_handle.c:sum_handle_set_process_buffer_size", "hmactools/sum_handle.c:sum_handle_hash_values_fprint", "hmactools/hmacsum.c:main", "hmactools/sum_handle.c:sum_handle_initialize_integrity_hash", "hmactools/sum_handle.c:sum_handle_update_integrity_hash", "hmactools/sum_handle.c:sum_handle_finalize_integrity_hash"]}
{"id": "C59", "title": "Builds on libcrypto report what failed and clear what they free", "statement": "With the functions of md5.h and sha.h, the EVP functions on a context in the structure, or on one from EVP_MD_CTX_new: each function adds to the error object exactly the entries for the first thing that goes wrong, in the order of the work, the functions above adding one entry to those of the context function that failed; a clean up that fails is reported and does not make the call fail. Each context takes one allocation, two with EVP_MD_CTX_new. Of the memory that calculate and calculate_hmac allocate, every block is freed, the key and the paddings as zeros, and the rest holds only what the provider itself left there.", "quantifier": "all providers whether or not they work, all algorithms and forms of the code, all arguments and memories, all patterns of allocation failures", "why_tests_cant": "A provider that fails at a given call, and the contents of freed memory, cannot be produced or seen with the libraries that tests link to.", "anchors": ["libhmac/libhmac_md5_context.c:libhmac_md5_context_initialize", "libhmac/libhmac_md5_context.c:libhmac_md5_context_free", "libhmac/libhmac_md5_context.c:libhmac_md5_context_update", "libhmac/libhmac_md5_context.c:libhmac_md5_context_finalize", "libhmac/libhmac_sha512_context.c:libhmac_sha512_context_finalize", "libhmac/libhmac_md5.c:libhmac_md5_calculate", "libhmac/libhmac_md5.c:libhmac_md5_calculate_hmac"]}
{"id": "C60", "title": "The model does what the text of the C files does", "statement": "The functions of the five files libhmac_X_context.c, with and without libcrypto, of the five files libhmac_X.c above either, and of hmactools/digest_hash.c, hmactools/byte_size_string.c, hmactools/hmactools_getopt.c and hmactools/sum_handle.c, and main of hmactools/hmacsum.c, executed statement by statement as they stand in the files by rules of C that know nothing of message digests, are undefined, or end with the same result, memory, error entries and contents of local arrays and of the variables whose addresses were passed, exactly as the functions of the model that the other properties are about. So executing the text of libhmac_X_calculate and libhmac_X_calculate_hmac yields the digest of FIPS 180-4 or RFC 1321 and the HMAC of RFC 2104.", "quantifier": "all five algorithms, the unrolled and the looped code, 32 and 64 bit platforms, signed and unsigned char, builds with and without verbose output, builds with the functions of md5.h and sha.h, with EVP functions on a context in the structure and from EVP_MD_CTX_new, all behaviours of these functions, all arguments that describe real objects, all command lines whose size fits an int, all memories, all patterns of allocation failures", "why_tests_cant": "A test compares single runs; that a model and a program agree on all of them is a statement about the program's text.", "anchors": ["libhmac/libhmac_md5_context.c:libhmac_md5_context_initialize", "libhmac/libhmac_md5_context.c:libhmac_md5_context_free", "libhmac/libhmac_md5_context.c:libhmac_md5_context_transform", "libhmac/libhmac_md5_context.c:libhmac_md5_context_update", "libhmac/libhmac_md5_context.c:libhmac_md5_context_finalize", "libhmac/libhmac_sha1_context.c:libhmac_sha1_context_initialize", "libhmac/libhmac_sha1_context.c:libhmac_sha1_context_free", "libhmac/libhmac_sha1_context.c:libhmac_sha1_context_transform", "libhmac/libhmac_sha1_context.c:libhmac_sha1_context_update", "libhmac/libhmac_sha1_context.c:libhmac_sha1_context_finalize", "libhmac/libhmac_sha224_context.c:libhmac_sha224_context_initialize", "libhmac/libhmac_sha224_context.c:libhmac_sha224_context_free", "libhmac/libhmac_sha224_context.c:libhmac_sha224_context_transform", "libhmac/libhmac_sha224_context.c:libhmac_sha224_context_update", "libhmac/libhmac_sha224_context.c:libhmac_sha224_context_finalize", "libhmac/libhmac_sha256_context.c:libhmac_sha256_context_initialize", "libhmac/libhmac_sha256_context.c:libhmac_sha256_context_free", "libhmac/libhmac_sha256_context.c:libhmac_sha256_context_transform", "libhmac/libhmac_sha256_context.c:libhmac_sha256_context_update", "libhmac/libhmac_sha256_context.c:libhmac_sha256_context_finalize", "libhmac/libhmac_sha512_context.c:libhmac_sha512_context_initialize", "libhmac/libhmac_sha512_context.c:libhmac_sha512_context_free", "libhmac/libhmac_sha512_context.c:libhmac_sha512_context_transform", "libhmac/libhmac_sha512_context.c:libhmac_sha512_context_update", "libhmac/libhmac_sha512_context.c:libhmac_sha512_context_finalize", "libhmac/libhmac_md5.c:libhmac_md5_initialize", "libhmac/libhmac_md5.c:libhmac_md5_free", "libhmac/libhmac_md5.c:libhmac_md5_update", "libhmac/libhmac_md5.c:libhmac_md5_finalize", "libhmac/libhmac_md5.c:libhmac_md5_calculate", "libhmac/libhmac_md5.c:libhmac_md5_calculate_hmac", "libhmac/libhmac_sha1.c:libhmac_sha1_initialize", "libhmac/libhmac_sha1.c:libhmac_sha1_free", "libhmac/libhmac_sha1.c:libhmac_sha1_update", "libhmac/libhmac_sha1.c:libhmac_sha1_finalize", "libhmac/libhmac_sha1.c:libhmac_sha1_calculate", "libhmac/libhmac_sha1.c:libhmac_sha1_calculate_hmac", "libhmac/libhmac_sha224.c:libhmac_sha224_initialize", "libhmac/libhmac_sha224.c:libhmac_sha224_free", "libhmac/libhmac_sha224.c:libhmac_sha224_update", "libhmac/libhmac_sha224.c:libhmac_sha224_finalize", "libhmac/libhmac_sha224.c:libhmac_sha224_calculate", "libhmac/libhmac_sha224.c:libhmac_sha224_calculate_hmac", "libhmac/libhmac_sha256.c:libhmac_sha256_initialize", "libhmac/libhmac_sha256.c:libhmac_sha256_free", "libhmac/libhmac_sha256.c:libhmac_sha256_update", "libhmac/libhmac_sha256.c:libhmac_sha256_finalize", "libhmac/libhmac_sha256.c:libhmac_sha256_calculate", "libhmac/libhmac_sha256.c:libhmac_sha256_calculate_hmac", "libhmac/libhmac_sha512.c:libhmac_sha512_initialize", "libhmac/libhmac_sha512.c:libhmac_sha512_free", "libhmac/libhmac_sha512.c:libhmac_sha512_update", "libhmac/libhmac_sha512.c:libhmac_sha512_finalize", "libhmac/libhmac_sha512.c:libhmac_sha512_calculate", "libhmac/libhmac_sha512.c:libhmac_sha512_calculate_hmac", "hmactools/digest_hash.c:digest_hash_copy_to_string", "hmactools/byte_size_string.c:byte_size_string_create", "hmactools/byte_size_string.c:byte_size_string_convert", "hmactools/hmactools_getopt.c:hmactools_getopt", "hmactools/sum_handle.c:sum_handle_initialize", "hmactools/sum_handle.c:sum_handle_free", "hmactools/sum_handle.c:sum_handle_signal_abort", "hmactools/sum_handle.c:sum_handle_open_input", "hmactools/sum_handle.c:sum_handle_close", "hmactools/sum_handle.c:sum_handle_read_buffer", "hmactools/sum_handle.c:sum_handle_initialize_integrity_hash", "hmactools/sum_handle.c:sum_handle_update_integrity_hash", "hmactools/sum_handle.c:sum_handle_set_digest_types", "hmactools/sum_handle.c:sum_handle_set_process_buffer_size", "hmactools/sum_handle.c:sum_handle_hash_values_fprint", "hmactools/sum_handle.c:sum_handle_finalize_integrity_hash", "hmactools/sum_handle.c:sum_handle_process_input", "hmactools/hmacsum.c:main"]}
