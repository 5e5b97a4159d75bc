{"id": "C01", "title": "Encoders never panic, never run into undefined behaviour and always return", "statement": "Calling any module's encode_from_str with any &str, any output buffer (including an empty one) and either value of is_end returns normally with Ok or Err: no out-of-bounds index, no arithmetic underflow, no failed unwrap, no infinite loop.", "quantifier": "every encoding module, every valid UTF-8 string of any length, every output buffer of any length and content, both is_end values", "why_tests_cant": "Tests sample strings and buffer lengths; an off-by-one in a bounds check shows only for particular combinations of the two.", "anchors": ["src/utf8.rs:encode_from_str", "src/utf16_le.rs:encode_from_str", "src/utf16_be.rs:encode_from_str", "src/utf32_le.rs:encode_from_str", "src/utf32_be.rs:encode_from_str", "src/single_byte.rs:ascii_ext_encode_from_str", "src/big5_whatwg.rs:encode_from_str", "src/shiftjis_whatwg.rs:encode_from_str", "examples/wrapper.rs:encode_from_str"]}
{"id": "C02", "title": "Decoders never panic, never run into undefined behaviour and always return", "statement": "Calling any module's decode_to_str with any byte slice whatsoever, any output buffer and either is_end returns normally with Ok or Err; in particular every char built with from_u32_unchecked is a Unicode scalar value and every unwrap succeeds.", "quantifier": "every encoding module, every byte string of any length, every output buffer, both is_end values", "why_tests_cant": "Arbitrary bytes form an infinite input space; proptest samples 512 of them with one buffer size.", "anchors": ["src/utf8.rs:decode_to_str", "src/utf16_le.rs:decode_to_str", "src/utf16_be.rs:decode_to_str", "src/utf32_le.rs:decode_to_str", "src/utf32_be.rs:decode_to_str", "src/single_byte.rs:ascii_ext_decode_to_str", "src/big5_whatwg.rs:decode_to_str", "src/shiftjis_whatwg.rs:decode_to_str", "examples/wrapper.rs:decode_to_str"]}
{"id": "C03", "title": "Decoder output is always well-formed UTF-8", "statement": "The text returned by decode_to_str is well-formed UTF-8 (so the unsafe from_utf8_unchecked is sound), and after an error the first output_bytes_written bytes of the output buffer are well-formed UTF-8 too.", "quantifier": "every encoding module, every byte string, every buffer, both is_end values", "why_tests_cant": "Soundness of an unsafe block is a statement about all inputs.", "anchors": ["src/utf8.rs:decode_to_str", "src/utf16_le.rs:decode_to_str", "src/utf16_be.rs:decode_to_str", "src/utf32_le.rs:decode_to_str", "src/utf32_be.rs:decode_to_str", "src/single_byte.rs:ascii_ext_decode_to_str", "src/big5_whatwg.rs:decode_to_str", "src/shiftjis_whatwg.rs:decode_to_str"]}
{"id": "C04", "title": "Consumed counts and encode error ranges lie on char boundaries", "statement": "The consumed count returned by encode_from_str is at most the input length and is a UTF-8 code point boundary of the input; both ends of an EncodeError's error_range are code point boundaries as well and delimit exactly one char.", "quantifier": "every encoding module, every string, every buffer, both is_end values", "why_tests_cant": "The boundary is found by a round-up loop whose result depends on where each multi-byte char falls.", "anchors": ["src/utf8.rs:encode_from_str", "src/utf16_le.rs:encode_from_str", "src/utf16_be.rs:encode_from_str", "src/utf32_le.rs:encode_from_str", "src/utf32_be.rs:encode_from_str", "src/single_byte.rs:ascii_ext_encode_from_str", "src/big5_whatwg.rs:encode_from_str", "src/shiftjis_whatwg.rs:encode_from_str"]}
{"id": "C05", "title": "The output buffer is only written in the returned prefix", "statement": "Encoding or decoding never changes the length of the output buffer, the returned slice is exactly the first bytes of the buffer after the call, and every byte of the buffer after the returned (or, on error, the reported output_bytes_written) prefix keeps the value it had before the call.", "quantifier": "every encoding module, both directions, every input, every buffer content and length, Ok and Err outcomes", "why_tests_cant": "A stray write past the reported prefix depends on the exact break point of the loop.", "anchors": ["src/utf8.rs:encode_from_str", "src/utf16_le.rs:encode_from_str", "src/utf16_be.rs:encode_from_str", "src/utf32_le.rs:encode_from_str", "src/utf32_be.rs:encode_from_str", "src/single_byte.rs:ascii_ext_encode_from_str", "src/big5_whatwg.rs:encode_from_str", "src/shiftjis_whatwg.rs:encode_from_str", "src/utf8.rs:decode_to_str", "src/utf16_le.rs:decode_to_str", "src/utf16_be.rs:decode_to_str", "src/utf32_le.rs:decode_to_str", "src/utf32_be.rs:decode_to_str", "src/single_byte.rs:ascii_ext_decode_to_str", "src/big5_whatwg.rs:decode_to_str", "src/shiftjis_whatwg.rs:decode_to_str"]}
{"id": "C06", "title": "Encode Ok: the output is exactly the encoding of the consumed prefix", "statement": "If encode_from_str returns Ok((bytes, n)) then bytes is the target encoding's representation of the first n bytes of the input and nothing else: no char is skipped, duplicated, reordered or partly written.", "quantifier": "every encoding module, every string, every buffer, both is_end values", "why_tests_cant": "It is a functional-correctness statement over all strings and all truncation points.", "anchors": ["src/utf8.rs:encode_from_str", "src/utf16_le.rs:encode_from_str", "src/utf16_be.rs:encode_from_str", "src/utf32_le.rs:encode_from_str", "src/utf32_be.rs:encode_from_str", "src/single_byte.rs:ascii_ext_encode_from_str", "src/big5_whatwg.rs:encode_from_str", "src/shiftjis_whatwg.rs:encode_from_str"]}
{"id": "C07", "title": "Encode writes everything that fits", "statement": "encode_from_str returns Ok with unconsumed input only if the next char's encoding does not fit into the space left, or (Big5 with is_end = false) the next char could still combine with a following one, or the space left is too small for the encoder to report the unencodable next char.", "quantifier": "every encoding module, every string, every buffer, both is_end values", "why_tests_cant": "Requires comparing against the best possible prefix for every buffer length.", "anchors": ["src/utf8.rs:encode_from_str", "src/utf16_le.rs:encode_from_str", "src/utf16_be.rs:encode_from_str", "src/utf32_le.rs:encode_from_str", "src/utf32_be.rs:encode_from_str", "src/single_byte.rs:ascii_ext_encode_from_str", "src/big5_whatwg.rs:encode_from_str", "src/shiftjis_whatwg.rs:encode_from_str"]}
{"id": "C08", "title": "Encode errors identify the first unencodable char exactly", "statement": "If encode_from_str returns Err, then character is the first char of the input that the encoding cannot represent, error_range is its exact byte range, everything before it has been encoded, output_bytes_written is the length of that encoding and the buffer holds it.", "quantifier": "every encoding module that can fail, every string, every buffer, both is_end values", "why_tests_cant": "The guarantee speaks about all input leading up to the problem for all strings.", "anchors": ["src/utf8.rs:encode_from_str", "src/utf16_le.rs:encode_from_str", "src/utf16_be.rs:encode_from_str", "src/utf32_le.rs:encode_from_str", "src/utf32_be.rs:encode_from_str", "src/single_byte.rs:ascii_ext_encode_from_str", "src/big5_whatwg.rs:encode_from_str", "src/shiftjis_whatwg.rs:encode_from_str", "src/lib.rs:EncodeError"]}
{"id": "C09", "title": "The UTF encoders never fail", "statement": "encode_from_str of utf8, utf16_le, utf16_be, utf32_le and utf32_be never returns Err, and with a buffer at least as long as the encoded text it consumes the whole input.", "quantifier": "the five UTF modules, every string, every buffer", "why_tests_cant": "Must hold for each of 1,112,064 scalar values in every position.", "anchors": ["src/utf8.rs:encode_from_str", "src/utf16_le.rs:encode_from_str", "src/utf32_le.rs:encode_from_str"]}
{"id": "C10", "title": "Encoding succeeds on exactly the representable texts", "statement": "Given a sufficiently large buffer and is_end = true, encode_from_str consumes the whole text and returns Ok if the text is representable in the encoding, and returns Err otherwise.", "quantifier": "every encoding module, every string", "why_tests_cant": "Both directions of the equivalence quantify over all texts.", "anchors": ["src/utf8.rs:encode_from_str", "src/utf16_le.rs:encode_from_str", "src/utf16_be.rs:encode_from_str", "src/utf32_le.rs:encode_from_str", "src/utf32_be.rs:encode_from_str", "src/single_byte.rs:ascii_ext_encode_from_str", "src/big5_whatwg.rs:encode_from_str", "src/shiftjis_whatwg.rs:encode_from_str"]}
{"id": "C11", "title": "Decode Ok: the text is exactly the decoding of the consumed prefix", "statement": "If decode_to_str returns Ok((text, n)) then n is at most the input length and text is the decoding, by the encoding's definition, of exactly the first n input bytes.", "quantifier": "every encoding module, every byte string, every buffer, both is_end values", "why_tests_cant": "Functional correctness over all byte strings and truncation points.", "anchors": ["src/utf8.rs:decode_to_str", "src/utf16_le.rs:decode_to_str", "src/utf16_be.rs:decode_to_str", "src/utf32_le.rs:decode_to_str", "src/utf32_be.rs:decode_to_str", "src/single_byte.rs:ascii_ext_decode_to_str", "src/big5_whatwg.rs:decode_to_str", "src/shiftjis_whatwg.rs:decode_to_str"]}
{"id": "C12", "title": "Decode writes everything that fits and stops only for a stated reason", "statement": "decode_to_str returns Ok with unconsumed input only if the next character does not fit in the space left, or is_end is false and the remaining bytes are held back as incomplete, or the remaining bytes are invalid and the space left is too small for that decoder to report it.", "quantifier": "every encoding module, every byte string, every buffer, both is_end values", "why_tests_cant": "Needs maximality for every buffer length.", "anchors": ["src/utf8.rs:decode_to_str", "src/utf16_le.rs:decode_to_str", "src/utf16_be.rs:decode_to_str", "src/utf32_le.rs:decode_to_str", "src/utf32_be.rs:decode_to_str", "src/single_byte.rs:ascii_ext_decode_to_str", "src/big5_whatwg.rs:decode_to_str", "src/shiftjis_whatwg.rs:decode_to_str"]}
{"id": "C13", "title": "Decode errors start exactly where decodable data ends", "statement": "If decode_to_str returns Err with error_range (a, b) then the first a input bytes decode completely, their decoding is what the buffer's first output_bytes_written bytes hold, and no valid code sequence of the encoding starts at a.", "quantifier": "every encoding module, every byte string, every buffer, both is_end values", "why_tests_cant": "The guarantee ranges over all malformed inputs.", "anchors": ["src/utf8.rs:decode_to_str", "src/utf16_le.rs:decode_to_str", "src/utf16_be.rs:decode_to_str", "src/utf32_le.rs:decode_to_str", "src/utf32_be.rs:decode_to_str", "src/single_byte.rs:ascii_ext_decode_to_str", "src/big5_whatwg.rs:decode_to_str", "src/shiftjis_whatwg.rs:decode_to_str", "src/lib.rs:DecodeError"]}
{"id": "C14", "title": "Extent of decode error ranges", "statement": "error_range is never empty and lies inside the input. Its length is: 1 for the single-byte encodings; 2 for an unpaired UTF-16 surrogate; 4 for an invalid UTF-32 unit; all remaining bytes for a sequence cut off by the end of input in UTF-16/32; 1 or 2 for Big5 and Shift JIS following the WHATWG rule that an ASCII second byte is not part of the error; in UTF-8 up to the next byte that could start a sequence, or all remaining bytes if the lead byte announces more bytes than are left.", "quantifier": "every encoding module, every byte string, every buffer, both is_end values", "why_tests_cant": "All malformed inputs, at all positions.", "anchors": ["src/utf8.rs:decode_to_str", "src/utf16_le.rs:decode_to_str", "src/utf16_be.rs:decode_to_str", "src/utf32_le.rs:decode_to_str", "src/utf32_be.rs:decode_to_str", "src/single_byte.rs:ascii_ext_decode_to_str", "src/big5_whatwg.rs:decode_to_str", "src/shiftjis_whatwg.rs:decode_to_str"]}
{"id": "C15", "title": "Exactly the valid data decodes completely", "statement": "With is_end = true and a sufficiently large buffer, decode_to_str consumes the whole input and returns Ok if and only if the input is valid data in the encoding; in that case the text is its decoding.", "quantifier": "every encoding module, every byte string", "why_tests_cant": "An equivalence over all byte strings.", "anchors": ["src/utf8.rs:decode_to_str", "src/utf16_le.rs:decode_to_str", "src/utf16_be.rs:decode_to_str", "src/utf32_le.rs:decode_to_str", "src/utf32_be.rs:decode_to_str", "src/single_byte.rs:ascii_ext_decode_to_str", "src/big5_whatwg.rs:decode_to_str", "src/shiftjis_whatwg.rs:decode_to_str"]}
{"id": "C16", "title": "str -> UTF-n -> str round trip is the identity", "statement": "For the five UTF encodings, encoding any string and decoding the result gives back the identical string with everything consumed.", "quantifier": "the five UTF modules, every string", "why_tests_cant": "proptest samples 512 strings without control characters; the claim is for all scalar values in all positions.", "anchors": ["src/utf16_le.rs", "src/utf16_be.rs", "src/utf32_le.rs", "src/utf32_be.rs", "src/utf8.rs", "tests/property_tests.rs"]}
{"id": "C17", "title": "UTF-n -> str -> UTF-n round trip is byte exact", "statement": "For the five UTF encodings, if a byte string decodes completely, encoding the resulting text gives back the identical bytes.", "quantifier": "the five UTF modules, every byte string that decodes", "why_tests_cant": "All valid byte strings.", "anchors": ["src/utf16_le.rs", "src/utf16_be.rs", "src/utf32_le.rs", "src/utf32_be.rs", "src/utf8.rs"]}
{"id": "C18", "title": "Single-byte encodings round-trip both ways and follow their mapping files", "statement": "For each of the 31 single-byte encodings, byte b decodes to char c, and c encodes to b, exactly when the encoding's mapping file lists b -> c; hence both round trips are the identity on the data that converts without error.", "quantifier": "all 31 single-byte modules, every string, every byte string", "why_tests_cant": "Only iso-8859-1 and iso-8859-7 are property-tested in the repository, on samples.", "anchors": ["src/single_byte.rs", "src/generated/single_byte", "encoding_tables/single_byte/ascii_ext"]}
{"id": "C19", "title": "Encoding to Big5 is lossless", "statement": "As the module documentation promises, any text that encodes to Big5 without error decodes back to the identical text.", "quantifier": "every string representable in Big5, including all combinations with the four combining sequences", "why_tests_cant": "18,490 table entries, arbitrary strings, and combining sequences that interact with their neighbours.", "anchors": ["src/big5_whatwg.rs", "src/generated/whatwg/big5_whatwg_tables.rs.inc"]}
{"id": "C20", "title": "Encoding to Shift JIS is lossless (as documented)", "statement": "The module documentation promises that encoding from str to Shift JIS is lossless, i.e. that any text that encodes without error decodes back to the identical text. The exact truth: decoding gives back the text with U+00A5, U+203E and U+2212 replaced by U+005C, U+007E and U+FF0D.", "quantifier": "every string representable in Shift JIS", "why_tests_cant": "All strings; the repository's own test data never decodes what it encoded.", "anchors": ["src/shiftjis_whatwg.rs"]}
{"id": "C21", "title": "Decoded Big5 / Shift JIS text can be re-encoded and is stable", "statement": "Any text produced by decoding Big5 or Shift JIS data can be encoded back to the same encoding without error, and decoding that gives the same text again (the bytes may differ).", "quantifier": "every byte string that decodes in Big5 or Shift JIS", "why_tests_cant": "All byte strings.", "anchors": ["src/big5_whatwg.rs", "src/shiftjis_whatwg.rs"]}
{"id": "C22", "title": "Streaming encode does not depend on chunking or buffer sizes", "statement": "Feeding a text in arbitrary chunks (appending each next chunk to unprocessed text), with arbitrary buffer sizes per call, is_end only on the last, emits the same bytes as encoding the whole text at once; if the whole text has an unencodable char, streaming reports the same char at the same absolute position after emitting the same bytes.", "quantifier": "every encoding module, every string, every way to split it into chunks, every sequence of buffer sizes", "why_tests_cant": "Unboundedly many call histories.", "anchors": ["src/utf8.rs:encode_from_str", "src/utf16_le.rs:encode_from_str", "src/utf16_be.rs:encode_from_str", "src/utf32_le.rs:encode_from_str", "src/utf32_be.rs:encode_from_str", "src/single_byte.rs:ascii_ext_encode_from_str", "src/big5_whatwg.rs:encode_from_str", "src/shiftjis_whatwg.rs:encode_from_str", "src/lib.rs (Streaming Encoding)"]}
{"id": "C23", "title": "Streaming decode does not depend on chunking or buffer sizes", "statement": "Feeding bytes in arbitrary chunks split at arbitrary byte positions, with arbitrary buffer sizes per call, produces the same text as decoding everything at once, and reports a first error at the same absolute byte position after the same text.", "quantifier": "every encoding module, every byte string, every split (also in the middle of characters), every sequence of buffer sizes", "why_tests_cant": "Unboundedly many call histories.", "anchors": ["src/utf8.rs:decode_to_str", "src/utf16_le.rs:decode_to_str", "src/utf16_be.rs:decode_to_str", "src/utf32_le.rs:decode_to_str", "src/utf32_be.rs:decode_to_str", "src/single_byte.rs:ascii_ext_decode_to_str", "src/big5_whatwg.rs:decode_to_str", "src/shiftjis_whatwg.rs:decode_to_str", "src/lib.rs (decode_to_str)"]}
{"id": "C24", "title": "Progress and termination of the documented streaming loop", "statement": "With an output buffer of at least 4 bytes (fewer where the encoding's characters are shorter), every call on non-empty input with is_end = true consumes at least one byte or returns an error, so the documented loop (convert, drop consumed input, repeat until empty) terminates and yields the complete conversion.", "quantifier": "every encoding module, both directions, every input, every buffer of at least 4 bytes", "why_tests_cant": "Non-termination appears only for particular input and buffer length pairs.", "anchors": ["src/utf8.rs:encode_from_str", "src/utf16_le.rs:encode_from_str", "src/utf16_be.rs:encode_from_str", "src/utf32_le.rs:encode_from_str", "src/utf32_be.rs:encode_from_str", "src/single_byte.rs:ascii_ext_encode_from_str", "src/big5_whatwg.rs:encode_from_str", "src/shiftjis_whatwg.rs:encode_from_str", "src/utf8.rs:decode_to_str", "src/utf16_le.rs:decode_to_str", "src/utf16_be.rs:decode_to_str", "src/utf32_le.rs:decode_to_str", "src/utf32_be.rs:decode_to_str", "src/single_byte.rs:ascii_ext_decode_to_str", "src/big5_whatwg.rs:decode_to_str", "src/shiftjis_whatwg.rs:decode_to_str", "tests/property_tests.rs"]}
{"id": "C25", "title": "Skip-and-continue error recovery yields the WHATWG replacement decoding", "statement": "A client that, on every DecodeError, emits U+FFFD and continues after error_range obtains for Big5, Shift JIS and UTF-16 exactly the output of the WHATWG decoder in replacement mode, for any input, and always terminates.", "quantifier": "Big5, Shift JIS, UTF-16LE/BE; every byte string", "why_tests_cant": "All malformed inputs with all error positions and their interactions.", "anchors": ["src/big5_whatwg.rs:decode_to_str", "src/shiftjis_whatwg.rs:decode_to_str", "src/utf16_le.rs:decode_to_str"]}
{"id": "C26", "title": "UTF-8 decode errors never cover valid text", "statement": "The error_range reported by utf8::decode_to_str covers only bytes that are not part of well-formed text, so that skipping it loses no character. (It fails at end of input: [0xE3, 0x41] with is_end = true reports (0, 2), swallowing 'A'.)", "quantifier": "every byte string, every buffer, both is_end values", "why_tests_cant": "Depends on the interaction of lead byte, remaining length and is_end.", "anchors": ["src/utf8.rs:decode_to_str"]}
{"id": "C27", "title": "ASCII transparency", "statement": "ASCII text encodes to the same bytes in utf8, all single-byte encodings, Big5 and Shift JIS, and ASCII bytes decode to the same text.", "quantifier": "utf8, the single-byte modules, Big5, Shift JIS; every ASCII string of any length, every buffer", "why_tests_cant": "All strings and buffer lengths.", "anchors": ["src/single_byte.rs", "src/big5_whatwg.rs", "src/shiftjis_whatwg.rs", "src/utf8.rs"]}
{"id": "C28", "title": "Latin-1 maps one-to-one to the first 256 scalar values", "statement": "iso_8859_1 decodes every byte string (it never fails) to the chars with the same values, and encodes exactly the texts all of whose chars are below 256, to the bytes with the same values.", "quantifier": "every byte string, every string", "why_tests_cant": "All strings.", "anchors": ["src/single_byte.rs:iso_8859_1", "src/generated/single_byte/iso-8859-1_tables.rs.inc"]}
{"id": "C29", "title": "Big-endian and little-endian variants mirror each other", "statement": "utf16_be and utf16_le (utf32_be and utf32_le) produce the same result up to swapping the bytes of each code unit: same consumed count, and decoding the unit-wise swapped input with the other variant gives the identical result, errors included.", "quantifier": "every string, every byte string, every buffer, both is_end values", "why_tests_cant": "All inputs.", "anchors": ["src/utf16_be.rs", "src/utf16_le.rs", "src/utf32_be.rs", "src/utf32_le.rs"]}
{"id": "C30", "title": "A larger buffer never yields less", "statement": "For the same input, a call with a longer output buffer consumes at least as much input, and the output of the shorter-buffer call is a prefix of the longer-buffer call's output (written bytes, whether the outcome is Ok or Err).", "quantifier": "every encoding module, both directions, every input, every two buffers", "why_tests_cant": "Pairs of executions over all inputs.", "anchors": ["src/utf8.rs:encode_from_str", "src/utf16_le.rs:encode_from_str", "src/utf16_be.rs:encode_from_str", "src/utf32_le.rs:encode_from_str", "src/utf32_be.rs:encode_from_str", "src/single_byte.rs:ascii_ext_encode_from_str", "src/big5_whatwg.rs:encode_from_str", "src/shiftjis_whatwg.rs:encode_from_str", "src/utf8.rs:decode_to_str", "src/utf16_le.rs:decode_to_str", "src/utf16_be.rs:decode_to_str", "src/utf32_le.rs:decode_to_str", "src/utf32_be.rs:decode_to_str", "src/single_byte.rs:ascii_ext_decode_to_str", "src/big5_whatwg.rs:decode_to_str", "src/shiftjis_whatwg.rs:decode_to_str"]}
{"id": "C31", "title": "Results do not depend on what the buffer held before", "statement": "Two calls with the same input and buffers of the same length return equal results, whatever the buffers contained.", "quantifier": "every encoding module, both directions, every input, every two buffer contents", "why_tests_cant": "Relational statement over all buffer contents.", "anchors": ["src/utf8.rs:encode_from_str", "src/utf16_le.rs:encode_from_str", "src/utf16_be.rs:encode_from_str", "src/utf32_le.rs:encode_from_str", "src/utf32_be.rs:encode_from_str", "src/single_byte.rs:ascii_ext_encode_from_str", "src/big5_whatwg.rs:encode_from_str", "src/shiftjis_whatwg.rs:encode_from_str", "src/utf8.rs:decode_to_str", "src/utf16_le.rs:decode_to_str", "src/utf16_be.rs:decode_to_str", "src/utf32_le.rs:decode_to_str", "src/utf32_be.rs:decode_to_str", "src/single_byte.rs:ascii_ext_decode_to_str", "src/big5_whatwg.rs:decode_to_str", "src/shiftjis_whatwg.rs:decode_to_str"]}
{"id": "C32", "title": "is_end matters only for an incomplete tail", "statement": "If a call with is_end = false consumes the whole input, or returns an error, the call with is_end = true behaves the same (for UTF-8 errors likewise); if the results differ then the is_end = false call held back a non-empty tail.", "quantifier": "every encoding module that takes is_end, both directions, every input, every buffer", "why_tests_cant": "Relational statement over all inputs.", "anchors": ["src/utf8.rs", "src/utf16_le.rs", "src/utf32_le.rs", "src/big5_whatwg.rs", "src/shiftjis_whatwg.rs"]}
{"id": "C33", "title": "The Big5 encoder follows the WHATWG encoder", "statement": "The module is documented as the WHATWG variant of Big5: for every char the WHATWG Big5 encoder can encode, encode_from_str produces the bytes the WHATWG encoder prescribes. (It fails for 57 chars that also have a pointer below 5024, among them U+8005, U+8D77 and U+90FD.)", "quantifier": "every Unicode scalar value", "why_tests_cant": "Needs comparison with the specification for every char; the repository's test data is generated from the same tables as the code.", "anchors": ["src/big5_whatwg.rs:encode_from_str", "encoding_tables/whatwg/generate_big5.py:deduped_table", "encoding_tables/whatwg/index-big5.txt"]}
{"id": "C34", "title": "The Shift JIS encoder follows the WHATWG encoder, plus EUDC", "statement": "For every char the WHATWG Shift_JIS encoder can encode, encode_from_str produces the prescribed bytes; the only additional encodable chars are U+E000..U+E757, which map to the codes that decode to them.", "quantifier": "every Unicode scalar value, in every string", "why_tests_cant": "Needs comparison with the specification for every char.", "anchors": ["src/shiftjis_whatwg.rs:encode_from_str", "encoding_tables/whatwg/index-jis0208.txt"]}
{"id": "C35", "title": "Big5 and Shift JIS decoding follows the WHATWG indexes", "statement": "A byte pair decodes to the char that the WHATWG index (index-big5.txt, index-jis0208.txt) lists for its pointer (plus the four Big5 combining sequences and the Shift JIS EUDC range), and is an error if the index lists none.", "quantifier": "every byte pair in every position of every byte string", "why_tests_cant": "The generated tables have 30,886 entries with sentinel values.", "anchors": ["src/big5_whatwg.rs:decode_to_str", "src/shiftjis_whatwg.rs:decode_to_str", "src/generated/whatwg"]}
{"id": "C36", "title": "The decode error cause is always InvalidData", "statement": "No decoder in the crate ever returns DecodeErrorCause::UnknownConversion.", "quantifier": "every encoding module, every byte string, every buffer", "why_tests_cant": "A negative statement over all inputs.", "anchors": ["src/utf8.rs:decode_to_str", "src/utf16_le.rs:decode_to_str", "src/utf16_be.rs:decode_to_str", "src/utf32_le.rs:decode_to_str", "src/utf32_be.rs:decode_to_str", "src/single_byte.rs:ascii_ext_decode_to_str", "src/big5_whatwg.rs:decode_to_str", "src/shiftjis_whatwg.rs:decode_to_str", "src/lib.rs:DecodeErrorCause"]}
{"id": "C37", "title": "Decode errors never swallow ASCII in Big5, Shift JIS, single-byte encodings", "statement": "If a decode error range of Big5, Shift JIS or a single-byte encoding covers an input byte, that byte is not an ASCII byte.", "quantifier": "Big5, Shift JIS, 31 single-byte modules; every byte string", "why_tests_cant": "All malformed inputs (an attack vector if violated, e.g. swallowing a quote character).", "anchors": ["src/big5_whatwg.rs:decode_to_str", "src/shiftjis_whatwg.rs:decode_to_str", "src/single_byte.rs:ascii_ext_decode_to_str"]}
{"id": "C38", "title": "Table lookups find an entry exactly if there is one, whatever binary search does", "statement": "All encode tables are strictly increasing in their keys, so binary_search_by_key finds the unique entry of every char present and fails for every absent one, for any implementation of binary search that meets its documentation.", "quantifier": "all 32 encode tables, every char, every search function satisfying the documented contract", "why_tests_cant": "std documents that the result is unspecified for unsorted slices; the search implementation varies by Rust version.", "anchors": ["src/single_byte.rs:ascii_ext_encode_from_str", "src/big5_whatwg.rs:encode_from_str", "src/shiftjis_whatwg.rs:encode_from_str", "src/generated"]}
{"id": "C39", "title": "Big5 combining sequences are recognised independently of chunking", "statement": "U+00CA / U+00EA followed by U+0304 / U+030C is always encoded as the single code 8862, 8864, 88A3, 88A5, wherever the text is split into chunks; with is_end = false a trailing U+00CA / U+00EA is held back and nothing else ever is.", "quantifier": "every string, every split, every buffer", "why_tests_cant": "All splits of all strings.", "anchors": ["src/big5_whatwg.rs:encode_from_str", "src/big5_whatwg.rs:map_grapheme"]}
{"id": "C40", "title": "Distinct texts have distinct encodings", "statement": "For the UTF encodings, the single-byte encodings and Big5, two different texts that encode without error never have the same encoding.", "quantifier": "every two strings", "why_tests_cant": "Pairs of all strings.", "anchors": ["src/utf8.rs:encode_from_str", "src/utf16_le.rs:encode_from_str", "src/utf16_be.rs:encode_from_str", "src/utf32_le.rs:encode_from_str", "src/utf32_be.rs:encode_from_str", "src/single_byte.rs:ascii_ext_encode_from_str", "src/big5_whatwg.rs:encode_from_str", "src/shiftjis_whatwg.rs:encode_from_str"]}
{"id": "C41", "title": "UTF-8 encode and decode copy their input unchanged", "statement": "utf8::encode_from_str returns a prefix of the input bytes, cut at the last char boundary that fits; utf8::decode_to_str returns exactly the longest well-formed prefix that fits.", "quantifier": "every string, every byte string, every buffer", "why_tests_cant": "All truncation points of all strings.", "anchors": ["src/utf8.rs:copy_len", "src/utf8.rs:encode_from_str", "src/utf8.rs:decode_to_str"]}
{"id": "C42", "title": "A deferred error is never lost", "statement": "If a decoder returns Ok although the next input is invalid (because the buffer had no room left to report), then calling it again on the rest with a buffer of at least one byte reports exactly that error; likewise for encoders with at least two bytes.", "quantifier": "every encoding module, both directions, every input, every pair of buffers", "why_tests_cant": "Histories of two calls over all inputs and buffers.", "anchors": ["src/utf8.rs:encode_from_str", "src/utf16_le.rs:encode_from_str", "src/utf16_be.rs:encode_from_str", "src/utf32_le.rs:encode_from_str", "src/utf32_be.rs:encode_from_str", "src/single_byte.rs:ascii_ext_encode_from_str", "src/big5_whatwg.rs:encode_from_str", "src/shiftjis_whatwg.rs:encode_from_str", "src/utf8.rs:decode_to_str", "src/utf16_le.rs:decode_to_str", "src/utf16_be.rs:decode_to_str", "src/utf32_le.rs:decode_to_str", "src/utf32_be.rs:decode_to_str", "src/single_byte.rs:ascii_ext_decode_to_str", "src/big5_whatwg.rs:decode_to_str", "src/shiftjis_whatwg.rs:decode_to_str"]}
{"id": "C43", "title": "Worst-case output sizes", "statement": "A buffer of k times the input length in bytes (k = 1 for utf8, single-byte, Big5 and Shift JIS, 2 for UTF-16, 4 for UTF-32) is always enough to encode the whole text in one call; for decoding, 1x (UTF-8, UTF-32), 1.5x (UTF-16), 3x (single-byte, Shift JIS) and 2x (Big5) the input length is always enough.", "quantifier": "every encoding module, every input", "why_tests_cant": "Bounds over all inputs.", "anchors": ["src/utf8.rs:encode_from_str", "src/utf16_le.rs:encode_from_str", "src/utf16_be.rs:encode_from_str", "src/utf32_le.rs:encode_from_str", "src/utf32_be.rs:encode_from_str", "src/single_byte.rs:ascii_ext_encode_from_str", "src/big5_whatwg.rs:encode_from_str", "src/shiftjis_whatwg.rs:encode_from_str", "src/utf8.rs:decode_to_str", "src/utf16_le.rs:decode_to_str", "src/utf16_be.rs:decode_to_str", "src/utf32_le.rs:decode_to_str", "src/utf32_be.rs:decode_to_str", "src/single_byte.rs:ascii_ext_decode_to_str", "src/big5_whatwg.rs:decode_to_str", "src/shiftjis_whatwg.rs:decode_to_str"]}
{"id": "C44", "title": "The checked-in tables are what the generator scripts produce from the data files", "statement": "Running the table generation algorithm (placeholder filling, de-duplication, sorting) on the mapping and index files gives exactly the generated tables compiled into the crate.", "quantifier": "all 30 generated single-byte table pairs and both WHATWG table pairs, every entry", "why_tests_cant": "No test in the repository compares them.", "anchors": ["encoding_tables/single_byte/generate_ascii_ext_tables.py", "encoding_tables/whatwg/generate_big5.py", "encoding_tables/whatwg/generate_shiftjis.py", "src/generated"]}
{"id": "C45", "title": "The exact effect of a Shift JIS round trip", "statement": "Encoding any text that is representable in Shift JIS and decoding the result gives back the text with U+00A5, U+203E and U+2212 replaced by U+005C, U+007E and U+FF0D, and nothing else changed.", "quantifier": "every string representable in Shift JIS, every buffer that is large enough, both is_end values", "why_tests_cant": "All strings over a repertoire of several thousand characters.", "anchors": ["src/shiftjis_whatwg.rs"]}
{"id": "C46", "title": "Exact difference between the Big5 encoder and the WHATWG encoder", "statement": "encode_from_str differs from the WHATWG Big5 encoder for exactly 57 chars that the latter can encode (it uses a pointer below 5024 for them); of the chars the WHATWG encoder rejects it encodes exactly those that occur in the index, with a pointer below 5024, and reports the others.", "quantifier": "every Unicode scalar value, every buffer of at least 2 bytes", "why_tests_cant": "The repository's encode test data is generated by the same de-duplication code as the table.", "anchors": ["src/big5_whatwg.rs:encode_from_str", "encoding_tables/whatwg/generate_big5.py:deduped_table", "src/generated/whatwg/big5_whatwg_tables.rs.inc"]}
{"id": "C47", "title": "The WHATWG table scripts are correct for every index file", "statement": "For any index without repeated pointers, generate_big5_tables / generate_shiftjis_tables write a decode table with the code point of each pointer at its position and U+FFFD in the gaps, ending with the last pointer, and an encode table strictly sorted by code point, containing for each code point of the index exactly the bytes of the pointer chosen by the documented rule (Big5: last for six characters, first otherwise; Shift_JIS: first outside 8272..8835). The order of the lines does not matter, and looking up the bytes of any encode entry in the decode table gives the code point back.", "quantifier": "all lists of (pointer, code point) pairs with distinct pointers, of any size and order", "why_tests_cant": "The scripts are only ever run on the two checked-in files.", "anchors": ["encoding_tables/whatwg/generate_big5.py", "encoding_tables/whatwg/generate_shiftjis.py"]}
{"id": "C48", "title": "The single-byte table script accepts exactly ASCII extensions and removes duplicate code points", "statement": "generate_ascii_ext_encoding raises an exception exactly if some byte below 0x80 does not map to itself; otherwise the decode table has 128 entries, holding the code point of each byte or U+FFFD, and the encode table has one entry per code point, strictly sorted as binary search needs it.", "quantifier": "all mapping files without repeated bytes", "why_tests_cant": "None of the 30 checked-in files has two bytes for one code point, so the de-duplication never matters.", "anchors": ["encoding_tables/single_byte/generate_ascii_ext_tables.py:41-49"]}
{"id": "C49", "title": "What replacing UTF-8 decode errors yields", "statement": "A client that replaces every reported error range of the UTF-8 decoder by U+FFFD and continues behind it obtains a text determined by the input alone: well-formed sequences are kept, a lead byte that announces more bytes than are left makes the whole rest one replacement character, and any other byte that starts no sequence is replaced together with all following bytes that cannot start one. With buffers of 4 bytes or more it terminates.", "quantifier": "all byte strings, all sequences of output buffers", "why_tests_cant": "No test continues after an error; all byte strings and buffer sequences.", "anchors": ["src/utf8.rs:decode_to_str", "src/lib.rs"]}
{"id": "C50", "title": "UTF-8 recovery compared with the WHATWG UTF-8 decoder", "statement": "The recovered text equals the one of the WHATWG UTF-8 decoder in replacement mode up to the number of consecutive U+FFFD, except that a truncated-looking sequence at the end of the input hides everything behind its lead byte. Both differences occur.", "quantifier": "all byte strings, all sequences of output buffers", "why_tests_cant": "All byte strings; needs an independent decoder to compare with.", "anchors": ["src/utf8.rs:decode_to_str"]}
{"id": "C51", "title": "Error recovery does not depend on how the data arrives", "statement": "A client that decodes data arriving in pieces (is_end false until the last one is known) and replaces each error by U+FFFD obtains, for every encoding but UTF-8, exactly the replacement decoding of the whole data; for UTF-8 the same text up to the number of consecutive U+FFFD, which can depend on the splitting.", "quantifier": "all byte strings, all ways to split them, all sequences of calls and output buffers, all encodings", "why_tests_cant": "Unbounded number of splittings and call sequences.", "anchors": ["src/lib.rs", "src/utf8.rs:decode_to_str", "src/utf16_le.rs:decode_to_str", "src/big5_whatwg.rs:decode_to_str"]}
{"id": "C52", "title": "The crate's randomised tests can never fail", "statement": "Every test function in tests/property_tests.rs returns normally for every input in the domain of its generator, extended to inputs of any length: the round-trip tests of UTF-8, UTF-16 and UTF-32 for every text, of ASCII for all bytes below 128, of Latin-1 and ISO-8859-7 for all bytes; the never-panic tests of all encodings for all bytes and all texts. The ISO-8859-7 round-trip test is representative as its comment says: the same test passes for each of the other single-byte encodings on data without undefined bytes. The example program examples/wrapper.rs also runs to its end. So do the two examples in the documentation of the crate, which return the whole text unchanged, for every ASCII text of at most 100 bytes in place of theirs.", "quantifier": "for all texts; for all byte strings of any length; for all 31 single-byte encodings", "why_tests_cant": "the tests themselves draw 512 random inputs of bounded length per run; that they cannot fail on any input is a statement about infinitely many runs", "anchors": ["tests/property_tests.rs:13-437", "examples/wrapper.rs:5-19", "src/lib.rs:22-27", "src/lib.rs:138-143"]}
{"id": "C53", "title": "The file-driven Big5 and Shift JIS tests pass, and their data files are what the scripts write", "statement": "For the index files in the repository, the test data the scripts generate makes the four tests in tests/big5.rs and tests/shiftjis.rs pass; the checked-in data files are byte for byte what the scripts write, so the tests pass on them.", "quantifier": "for all lines of the generated files (each byte of the checked-in files is compared)", "why_tests_cant": "the tests check the code against the data; nothing in the repository checks that the data are the scripts' output, nor that the tests must pass whenever code, tables and data come from the same index", "anchors": ["tests/big5.rs:1-33", "tests/shiftjis.rs:1-32", "encoding_tables/whatwg/generate_big5.py:108-171", "encoding_tables/whatwg/generate_shiftjis.py:98-135"]}
{"id": "C54", "title": "The scripts read the index and mapping files as their format says", "statement": "Every text file whose lines are in the format of the WHATWG index files (decimal pointer, hexadecimal code point, comments, lines with fewer than two fields, any Unicode white space between the fields, lines ended by LF, CRLF, CR or the end of the file) is read by generate_big5.py and generate_shiftjis.py as exactly the list of pairs it denotes; every text file in the format of the Unicode mapping files (hexadecimal byte and code point, comments, undefined bytes) is read by generate_ascii_ext_tables.py as exactly the pairs it denotes.", "quantifier": "all text files in the format, of any length, with any comments and any white space", "why_tests_cant": "The scripts have no tests; the set of files is infinite.", "anchors": ["encoding_tables/whatwg/generate_big5.py:51-57", "encoding_tables/whatwg/generate_shiftjis.py:42-48", "encoding_tables/single_byte/generate_ascii_ext_tables.py:8-16"]}
{"id": "C55", "title": "The scripts write Rust source that defines the right tables", "statement": "For every index file with unique pointers in the range of the encoding, the output of the Big5 and Shift JIS scripts is valid UTF-8 whose Rust tokens are the declarations of DECODE_TABLE and ENCODE_TABLE with the correct lengths, with the code point of each pointer at its position and U+FFFD in the gaps, and with the encode entries of the index (one pointer per code point, chosen as the encoding demands) in strictly increasing order; all values fit their types. Likewise for the single-byte script, which writes nothing exactly if an ASCII pair is missing. A source text has only one token sequence.", "quantifier": "all index files and mapping files in the documented format with unique pointers in range", "why_tests_cant": "The scripts have no tests; the set of files is infinite.", "anchors": ["encoding_tables/whatwg/generate_big5.py:62-105", "encoding_tables/whatwg/generate_shiftjis.py:53-96", "encoding_tables/single_byte/generate_ascii_ext_tables.py:3-91"]}
{"id": "C56", "title": "The generated files in the repository are the output of the scripts for the data files in the repository", "statement": "Each index or mapping file in the repository is in the documented format and denotes the index or character set used throughout these properties; running the script on its bytes gives the bytes of the checked-in .rs.inc file; the tokens of that file declare exactly the tables that the crate includes.", "quantifier": "every byte of all 32 data files and all 32 generated files", "why_tests_cant": "Nothing in the repository reruns the scripts or compares their output.", "anchors": ["src/generated/whatwg/big5_whatwg_tables.rs.inc", "src/generated/whatwg/shiftjis_whatwg_tables.rs.inc", "src/generated/single_byte", "encoding_tables/whatwg/index-big5.txt", "encoding_tables/whatwg/index-jis0208.txt", "encoding_tables/single_byte/ascii_ext", "src/single_byte.rs:21-264"]}
{"id": "C57", "title": "Substituting characters that have no representation", "statement": "A client that encodes text arriving in pieces, with any output buffers, and puts bytes of its choice in place of each character reported as unencodable and goes on behind it, emits exactly one possible byte sequence: the representation of the text, taken in longest pieces, with the substitute for each character that starts no piece. With buffers of 4 bytes or more such a client always reaches the end. If the substitutes are the representation of some text (perhaps empty), the result is the representation of the correspondingly rewritten text, and, except in Shift JIS, decoding the result gives that text.", "quantifier": "all encodings, all texts, all divisions into pieces and buffers, all substitutions", "why_tests_cant": "The crate leaves skipping and substitution to the client (lib.rs:57-61) and tests none of it; texts, chunkings, buffers and substitutions are unbounded.", "anchors": ["src/lib.rs:57-61", "src/lib.rs:120-134", "src/single_byte.rs:278-310", "src/big5_whatwg.rs:17-78", "src/shiftjis_whatwg.rs:10-87"]}
{"id": "C58", "title": "Substitution yields what the Encoding Standard's encoders yield", "statement": "For Shift JIS, Big5 and the single-byte encodings, such a client emits, character by character, the bytes of the Encoding Standard's encoder (the mapping file for single-byte encodings), or the substitute where that encoder reports an error; for Shift JIS provided that the text has no characters U+E000..U+E757, and for Big5 provided that no character of the text has an index pointer below 5024.", "quantifier": "all texts with the stated restriction, all chunkings and buffers, all substitutions", "why_tests_cant": "Infinitely many texts; there is no second implementation in the repository to compare with.", "anchors": ["src/big5_whatwg.rs:17-78", "src/shiftjis_whatwg.rs:10-87", "src/single_byte.rs:278-310"]}
{"id": "C59", "title": "No integer overflow, and no dependence on the word size", "statement": "On every machine whose usize has 16 bits or more, and for all inputs and output buffers that can exist as Rust slices (at most isize::MAX bytes), no addition, subtraction or multiplication in any encoder or decoder leaves the range of its integer type (usize or u32). Results and buffer contents are the same on all of them.", "quantifier": "all encodings, all word sizes of 16 bits or more, all inputs, buffers and both values of is_end", "why_tests_cant": "Tests run on one word size, with short inputs; overflow would need inputs close to the size of the address space.", "anchors": ["src/utf16_le.rs:13-46", "src/utf16_le.rs:57-130", "src/utf32_le.rs:11-78", "src/single_byte.rs:278-351", "src/big5_whatwg.rs:24-183", "src/shiftjis_whatwg.rs:17-202", "src/utf8.rs:17-87"]}
{"id": "C60", "title": "Complete specification of a single call", "statement": "A call of an encoder or decoder returns a given result and leaves a given buffer exactly if the specification of calls says so. Encoders take, from the start of the text, the longest representable pieces that no text still to come can extend, as long as they fit in the buffer; decoders take code sequences as long as their text fits. They stop with Ok at the end of the input, where the next piece does not fit, where (unless is_end is set) the next piece depends on what follows or is cut off, and where there is an error but not the room that the encoding needs to report it. Otherwise they report the error with the offending character or the extent of the invalid bytes. Behind the written bytes the buffer is unchanged. The specification allows exactly one outcome for every call.", "quantifier": "all encodings, inputs, buffer sizes and contents, both values of is_end, all results and final buffers", "why_tests_cant": "An equivalence between the implementation and a specification over all inputs, buffers and flags.", "anchors": ["src/lib.rs:30-150", "examples/wrapper.rs:1-120", "src/big5_whatwg.rs:17-183", "src/shiftjis_whatwg.rs:10-202", "src/single_byte.rs:278-351", "src/utf8.rs:10-110", "src/utf16_le.rs:10-130", "src/utf32_le.rs:9-78"]}
{"id": "C61", "title": "Conversion from one encoding to another", "statement": "A client that feeds arriving bytes to the decoder of one encoding, replacing errors by U+FFFD, and the text so obtained to the encoder of another one, replacing characters that it lacks by bytes of its choice, emits the representation of the Encoding Standard's reading of the data, however the data arrives, in whatever order the calls are made and whatever output buffers are used (for UTF-8 as source up to the number of consecutive U+FFFD). For valid data it is the representation of the text that the data means. With buffers of 4 bytes or more the client always makes progress.", "quantifier": "all pairs of encodings, all data, all ways of cutting it up, all interleavings of calls, all buffers and substitutions", "why_tests_cant": "Infinitely many interleavings of two stateful streams with arbitrary chunk and buffer sizes.", "anchors": ["src/lib.rs:55-170", "src/big5_whatwg.rs:15-190", "src/shiftjis_whatwg.rs:13-208", "src/single_byte.rs:278-351", "src/utf8.rs:11-87", "src/utf16_le.rs:6-136", "src/utf32_le.rs:6-84"]}
{"id": "C62", "title": "Running the table scripts: which files they read and write, and what the crate then includes", "statement": "When a table script runs to its end, in a repository with any contents, the file that each module of the crate includes holds what the script makes of the data file of that encoding (by name), the files that the tests include hold the test data for it, and no other file has changed; running it again changes nothing. For data files in the documented format it does run to its end, and the included file then declares exactly the tables of the mapping or index. If the single-byte script ends with an exception, the file of the module at which it stopped is left empty (or, if there was no data file, as it was), those of the other modules are new or as before, and no other file has changed. In the repository as it is, the included files declare the tables of the modules that include them, the scripts change nothing, and the tests pass on the files they include.", "quantifier": "all file systems (all contents at all paths), all modules, all mapping and index files in the documented format", "why_tests_cant": "The scripts are not run by the tests, and a wrong file name in one of over thirty calls and includes gives a crate that compiles and whose other encodings work.", "anchors": ["encoding_tables/single_byte/generate_ascii_ext_tables.py:3-217", "encoding_tables/whatwg/generate_big5.py:62-191", "encoding_tables/whatwg/generate_shiftjis.py:53-155", "src/single_byte.rs:21-265", "src/big5_whatwg.rs:13", "src/shiftjis_whatwg.rs:11", "tests/big5.rs:5-12", "tests/shiftjis.rs:5-12"]}
{"id": "C63", "title": "A call looks only a bounded distance ahead", "statement": "What a decoder does with an output buffer of n bytes is decided by the first n+1 bytes of the input for Big5, Shift JIS and single-byte encodings, n+3 for UTF-8, 2n+4 for UTF-16 and 4n+4 for UTF-32: further input, its absence and the is_end flag change neither the result nor the buffer. For UTF-8 the end of the range of a reported error is excepted; it can depend on bytes arbitrarily far behind. What an encoder does is decided by the first n characters (n/2 for UTF-16, n/4 for UTF-32, rounded down). For the multi-byte decoders and for all encoders these bounds are exact: with one byte or character less there are inputs that are treated differently.", "quantifier": "all encodings, all output buffers, all pairs of inputs that agree that far, all is_end flags", "why_tests_cant": "A statement about pairs of unboundedly long inputs; tests compare a result with an expected one, not with the result for another continuation.", "anchors": ["src/lib.rs:55-170", "src/big5_whatwg.rs:15-190", "src/shiftjis_whatwg.rs:13-208", "src/single_byte.rs:278-351", "src/utf8.rs:11-87", "src/utf16_be.rs:6-136", "src/utf16_le.rs:6-136", "src/utf32_be.rs:6-84", "src/utf32_le.rs:6-84"]}
{"id": "C64", "title": "The core library functions that the crate calls, as modelled, do what their documentation says", "statement": "In the model, char_indices yields the characters of a string in order with the byte positions where they start; is_char_boundary holds exactly at those positions and the end; from_utf8's valid_up_to is the length of the longest well-formed prefix; from_u32 succeeds exactly for scalar values; encode_utf8, len_utf8 and len_utf16 are the encoding forms and their lengths; to/from_le/be_bytes are positional notation; chunks cuts a slice into pieces of the given length with only the last one shorter; binary_search_by_key on a sorted slice returns the index of some entry with the key, or reports that there is none; indexing, slicing and copy_from_slice read and change the elements they name, no others, and panic exactly when out of range; the unchecked functions are undefined behaviour exactly outside their documented preconditions.", "quantifier": "all texts, byte strings, integers, slices and keys", "why_tests_cant": "It concerns the assumptions under which everything else is proved; tests of the crate exercise the real library on a few inputs.", "anchors": ["src/utf8.rs:19-24", "src/utf16_le.rs:10-48", "src/utf16_le.rs:56-133", "src/utf32_le.rs:8-80", "src/single_byte.rs:275-351", "src/big5_whatwg.rs:21-190", "src/shiftjis_whatwg.rs:14-208"]}
{"id": "C65", "title": "What becomes of data that is decoded and encoded again", "statement": "Data that decodes completely can be encoded again in the same encoding; the result has the same length, and each code sequence is replaced by the one that the encoder uses for the same text, which is unique. It comes back unchanged exactly if every code sequence stands for itself. In the UTF encodings and the single-byte encodings every sequence does; in Big5 exactly 100 two-byte codes are replaced by another one, in Shift JIS exactly 398.", "quantifier": "all encodings, all data that decodes without error, all sufficient buffers", "why_tests_cant": "Unboundedly long data; the tests check that decoded text is stable, not which bytes a round trip changes.", "anchors": ["src/big5_whatwg.rs:3-7", "src/big5_whatwg.rs:15-190", "src/shiftjis_whatwg.rs:3-6", "src/shiftjis_whatwg.rs:13-208", "src/single_byte.rs:267-351", "src/lib.rs:218-220", "src/generated/whatwg/big5_whatwg_tables.rs.inc", "src/generated/whatwg/shiftjis_whatwg_tables.rs.inc"]}
{"id": "C66", "title": "The source text itself, run as a program, meets the complete specification", "statement": "Take the bytes of the crate's source files, read them as Rust, and call any of the 76 public encode and decode functions by its path: on every slice that can exist, with usize of 16 bits or more, the call returns (no panic, no integer overflow, no out-of-range index, no violated precondition of an unsafe function, no endless loop), and its result and the final contents of the output buffer are exactly the ones that the complete specification of a call allows.", "quantifier": "all encodings, all input text or bytes, all output buffers, both values of is_end, all sizes of usize from 16 bits, all sufficient bounds on loop iterations and nesting", "why_tests_cant": "Tests run the compiled code on some inputs; this is about the source text and all inputs, and it removes the hand-written model from what must be believed.", "anchors": ["src/lib.rs:222-286", "src/utf8.rs", "src/utf16_be.rs", "src/utf16_le.rs", "src/utf32_be.rs", "src/utf32_le.rs", "src/single_byte.rs", "src/big5_whatwg.rs", "src/shiftjis_whatwg.rs", "src/generated/single_byte", "src/generated/whatwg/big5_whatwg_tables.rs.inc", "src/generated/whatwg/shiftjis_whatwg_tables.rs.inc"]}
{"id": "C67", "title": "The example program, run from its source text, dispatches correctly and runs to its end", "statement": "Take the bytes of examples/wrapper.rs and of the crate's source files and read them as Rust: for each of the 38 variants of Encoding, encode_from_str and decode_to_str of the example return the result, and leave the output buffer, that the complete specification of a call allows for the encoding the variant is named after (is_end matters exactly where that encoding's own function takes it); and main() runs to its end without a panic or a failed assertion.", "quantifier": "all variants, all input text or bytes, all output buffers, both values of is_end, all sizes of usize from 16 bits, all sufficient bounds on loop iterations and nesting", "why_tests_cant": "The repository never tests the example; a swapped arm among 76 would go unnoticed, and two encodings can agree on most inputs.", "anchors": ["examples/wrapper.rs:1-160"]}
{"id": "C68", "title": "The generator scripts, run from their source text, write the tables and test data the crate includes", "statement": "Take the bytes of the three Python scripts in encoding_tables and run them as Python in their directories. On every state of the files each script ends, normally or with an exception, and the files it leaves are determined; given index or mapping files of the documented format, it ends normally, every file that the crate or its tests include then contains the token sequence of the tables, or the lines of test data, that belong to that index or mapping, and no other file is changed; a mapping that does not extend ASCII ends in an exception; on the repository's own files every script ends normally and changes nothing.", "quantifier": "all states of the files (every path present or absent with any contents), all sufficient bounds on loop iterations and call depth", "why_tests_cant": "The scripts are not tested in the repository, and are run only when the data changes; the statement is about every data file and about the script text, not about a transcription of it.", "anchors": ["encoding_tables/single_byte/generate_ascii_ext_tables.py:1-217", "encoding_tables/whatwg/generate_big5.py:1-191", "encoding_tables/whatwg/generate_shiftjis.py:1-156"]}
{"id": "C69", "title": "The repository's own tests, run from their source text, pass: the property tests on every input", "statement": "Take the bytes of the files in tests/ and src/ and read them as Rust. Each of the 28 property tests returns, without a failed assertion or a panic, on every value that its strategy may generate, of any length. Each of the 186 unit tests returns. Each of the four tests that compare files passes exactly if encoding or decoding the one file gives what is in the other, whatever the two files contain, and passes with the files that are checked in; since the number of bytes consumed is not compared, it also passes with an expected file that is cut short. The two examples in the documentation of the crate run to their ends.", "quantifier": "all test functions, all generated values, all contents of the data files, all sizes of usize from 16 bits that can hold the lengths involved, all sufficient bounds on loop iterations and nesting", "why_tests_cant": "proptest draws a few hundred values of bounded length on one machine; the statement covers every value, and says what the file tests establish for every pair of files.", "anchors": ["tests/property_tests.rs:1-438", "tests/big5.rs:1-33", "tests/shiftjis.rs:1-32", "src/utf8.rs:89-395", "src/utf16_be.rs:138-139", "src/single_byte.rs:363-689", "src/big5_whatwg.rs:192-193", "src/shiftjis_whatwg.rs:210-211", "src/lib.rs:22-27", "src/lib.rs:138-143"]}
{"id": "C70", "title": "The bounds under which the source text is run have no influence on what it does", "statement": "The interpreters that C66 to C69 are about run a program within bounds on iterations and nesting. A call of any Rust function of any program, and a run of any Python script, that ends within some bounds ends in the same way, with the same result and effects, within all larger ones, so that no two bounds lead to different ends. Hence within any bounds at all a call to the crate or to the example program either uses them up or returns what the complete specification allows, and never panics; no unit or property test ever fails an assertion; and a generator script never ends in another way than C68 says.", "quantifier": "all programs, all bounds, all arguments (for the crate: all encodings, inputs, buffers, sizes of usize from 16 bits)", "why_tests_cant": "It is about all programs and all bounds, and it is what makes `for sufficiently large bounds` in the other statements mean `when run without bounds`.", "anchors": ["src/lib.rs:222-229", "examples/wrapper.rs:1-160", "tests/property_tests.rs:1-438", "encoding_tables/whatwg/generate_big5.py:1-191"]}
{"id": "C71", "title": "A call does work as the size of its buffer allows, whatever the length of the input", "statement": "No loop of an encoder runs more often than the output buffer allows: four times for UTF-8, and for a buffer of n bytes n/2+1 times for UTF-16, n/4+1 times for UTF-32 and n+1 times for the others, but no less than four. No loop of a decoder runs more than n+1 times, except that of UTF-8, in which none runs more often than four times or, if an error is reported, than the error has bytes. The length of the input does not matter. Within these numbers the call returns what C60 says. For each encoding there are calls that need exactly these numbers. Decoding UTF-8 does not end with fewer iterations than the error has bytes (if four or more are given), so no number that depends only on the buffer is enough.", "quantifier": "all encodings, all input, all buffers, all sizes of usize from 16 bits that can hold the lengths involved; the functions as they are in the source text", "why_tests_cant": "The number of iterations is not observable from outside, and whether it grows with the input would have to be measured on inputs of every length.", "anchors": ["src/utf8.rs:11-67", "src/utf8.rs:77-87", "src/utf16_le.rs:6-136", "src/utf32_le.rs:6-84", "src/single_byte.rs:270-357", "src/big5_whatwg.rs:15-190", "src/shiftjis_whatwg.rs:13-208"]}
{"id": "C72", "title": "The crate exports two functions for each encoding and their result types, and nothing else", "statement": "Exactly these can be named by a program that uses the crate: a module for each of the 38 encodings (31 of them in the module single_byte); in each of them the functions encode_from_str and decode_to_str, with the documented parameters and result (is_end in all decoders but the single-byte ones, and in the encoder of Big5 only; the result borrows from the buffer and not from the input); the types EncodeResult and DecodeResult; the structs EncodeError and DecodeError with three public fields each, and the enum DecodeErrorCause with its two variants, all of which derive Debug, Copy, Clone and PartialEq. Hence every function of the interface is one that C66 is about. The crate is no_std; it uses neither the standard library, an allocator nor other crates, and has no global variables or inline assembly. The only unsafe blocks are calls of core::str::from_utf8_unchecked and core::char::from_u32_unchecked.", "quantifier": "all declarations, all unsafe blocks and all words of all 41 source files (their unit tests included, for the last two sentences)", "why_tests_cant": "Tests use items that exist; that nothing else is exported, that nothing else is unsafe and that no state is shared between calls are statements about what is absent from the text.", "anchors": ["src/lib.rs:1-2", "src/lib.rs:222-286", "src/single_byte.rs:8-265", "src/utf16_be.rs:6", "src/utf16_be.rs:51", "src/utf16_be.rs:76", "src/big5_whatwg.rs:187"]}
{"id": "C73", "title": "A call that stops early has filled its buffer, so the number of calls is that which the size of the output calls for", "statement": "If a call returns Ok with input left, all of the buffer is used except for at most 3 bytes for the UTFs, 1 byte for encoding to Big5 or Shift JIS, none for encoding to a single-byte encoding, 3 bytes for decoding Big5, 2 for Shift JIS, and one byte less than the longest character of the character set takes in UTF-8 for decoding a single-byte encoding (unless is_end is false and what is left may be the beginning of something longer). None of these numbers can be lowered. Hence the documented loop, given buffers of k bytes or more each, yields the output of s bytes in at most s/(k-w) calls, rounded up, where w is the number above, and reports the same error as a single call after at most s/(k-w)+1 calls; and it never takes fewer than s/k calls.", "quantifier": "all encodings, all input, all buffers, all sequences of buffers of different sizes", "why_tests_cant": "That no combination of text and buffer size makes a call stop early is a statement about all of them; an encoder that gives up a byte too soon produces correct output, in more calls.", "anchors": ["src/lib.rs:76-91", "src/utf8.rs:11-67", "src/utf16_le.rs:6-136", "src/utf32_le.rs:6-84", "src/single_byte.rs:270-357", "src/big5_whatwg.rs:15-190", "src/shiftjis_whatwg.rs:13-208"]}
{"id": "C74", "title": "The tables agree with an independent implementation", "statement": "Given enough room, the bytes b1..bn decode successfully in one of the 31 single-byte encodings, to the characters c1..cn, exactly if the codec of CPython of that encoding maps every bi to ci. Bytes decode successfully in Shift JIS, to some text, exactly if they are made of codes of CPython's cp932, other than the single bytes A0, FD, FE and FF, for this text. The same holds for Big5 and CPython's big5hkscs, except for 11 codes that are mapped to other characters and 192 that the codec does not have, which are listed. Conversely what the encoders write is read by the codecs as the text it was made from, apart from U+00A5, U+203E and U+2212 in Shift JIS, which are read as U+005C, U+007E and U+FF0D, and for Big5 the listed codes. The Big5 decoder also agrees with the table big5_2003.txt in the repository, which nothing is made from, for all of its characters that are not of private use, except for 40 codes, which are listed.", "quantifier": "all encodings other than the UTFs, all byte sequences, all texts, all buffers that are large enough", "why_tests_cant": "The tests use a few dozen codes of each encoding, and the tables they are checked against were written by the same author; a wrong entry, or one missing, in the data files shows up only against tables from elsewhere, for all codes in all combinations.", "anchors": ["src/single_byte.rs:270-357", "src/big5_whatwg.rs:15-190", "src/shiftjis_whatwg.rs:13-208", "src/generated/whatwg/big5_whatwg_tables.rs.inc", "src/generated/whatwg/shiftjis_whatwg_tables.rs.inc", "encoding_tables/whatwg/index-big5.txt", "encoding_tables/whatwg/index-jis0208.txt", "encoding_tables/big5_2003.txt"]}
{"id": "C75", "title": "Encoded data can be concatenated, cut and searched", "statement": "If data a decodes to one text and b to another, a followed by b decodes to the two texts one after the other; and if a followed by b decodes and a does, so does b, to the rest of the text. If two texts can be encoded, their concatenation is encoded as the concatenation; and a text that can be encoded can be cut anywhere, except in Big5 before U+0304 and U+030C, into two texts that can be encoded, whose encodings follow one another. If in data that decodes there occurs, at a multiple of the size of a code unit, data that decodes to a pattern, the text contains the pattern there, and what is before and after it decodes to what is before and after the pattern. The last is true for all encodings except Big5 and Shift JIS, in which it is true for patterns of bytes below 0x40. All these exceptions are real.", "quantifier": "all encodings, all data and texts, all positions in them", "why_tests_cant": "That a pattern is never found in the middle of a character is a statement about all pairs of characters next to each other, and tests only decode from the beginning.", "anchors": ["src/lib.rs:55-170", "src/big5_whatwg.rs:15-190", "src/shiftjis_whatwg.rs:13-208", "src/utf16_be.rs:6-136", "src/utf32_be.rs:6-84", "src/single_byte.rs:270-357", "src/utf8.rs:11-67"]}
{"id": "C76", "title": "Damage to encoded data stays local", "statement": "Let a client replace every reported error range by U+FFFD and go on behind it, with any buffers, and let intact data a, arbitrary data m and intact data v follow one another. The text it emits is the text of a, then some text of at most as many characters as m has bytes, then the text of v. The conditions are: in UTF-16 and UTF-32 the length of m is a multiple of the size of a code unit; in UTF-8 v has at least 3 bytes; in Big5 and Shift JIS v begins with a byte below 0x40. More generally v need not be intact: what is emitted for it is what is emitted for v alone, under the same conditions, if it does not begin with a byte or code unit that cannot begin a character and in UTF-16 is not a single byte. Except in UTF-8, what is emitted for data cut at such a place is what is emitted for the two parts; in UTF-8 this is false, with a witness. There are witnesses that none of the conditions on intact data can be dropped, and of those on other data neither that on how it begins; that in UTF-16 it is not a single byte is needed for reading the parts, and not shown to be needed for the rest.", "quantifier": "all encodings, all data before, in and behind the damage, all buffers and sequences of calls", "why_tests_cant": "The damage is arbitrary data of arbitrary length, and the tests look only at the first error of each example.", "anchors": ["src/lib.rs:55-170", "src/big5_whatwg.rs:15-190", "src/shiftjis_whatwg.rs:13-208", "src/utf16_be.rs:6-136", "src/utf32_be.rs:6-84", "src/single_byte.rs:270-357", "src/utf8.rs:11-67"]}
{"id": "C77", "title": "The order of encoded data", "statement": "One text is before another in the order of code points exactly if its encoding is before the other's in the order of bytes, for UTF-8 and big-endian UTF-32, and for big-endian UTF-16 if neither text has a character above U+FFFF. A text that is a beginning of another is before it. For big-endian UTF-16 with such characters, little-endian UTF-16 and UTF-32, Shift JIS and Big5 this is false, with witnesses.", "quantifier": "all pairs of texts that can be encoded", "why_tests_cant": "The tests compare the encoding of one text with a constant; the order is a statement about all pairs of texts.", "anchors": ["src/utf8.rs:11-67", "src/utf32_be.rs:6-84", "src/utf16_be.rs:6-136", "src/lib.rs:55-170"]}
