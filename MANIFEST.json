{
 "claims": [
  {
   "property": "C01",
   "status": "proved",
   "theorems": [
    "C01_in_memory_cursors"
   ],
   "note": ""
  },
  {
   "property": "C02",
   "status": "proved",
   "theorems": [
    "C02_readerat_cursors"
   ],
   "note": "Reader-backed cursors over the first D bytes of any honest ReaderAt, for every history, other Bodies included."
  },
  {
   "property": "C03",
   "status": "proved",
   "theorems": [
    "C03_seeker_cursors",
    "C03_refuted"
   ],
   "note": "Cursors for every honest seekable source whose Read fills its buffer; C03_refuted shows that the usual rule for Readers (short reads allowed) is not enough, as the statement says."
  },
  {
   "property": "C04",
   "status": "proved",
   "theorems": [
    "C04_one_stream",
    "C04_ideal_cursors"
   ],
   "note": "for every Reader relative to what it delivers, and under the contract 'streams' for a given byte string"
  },
  {
   "property": "C05",
   "status": "proved",
   "theorems": [
    "C05_close_is_final",
    "C05_already_closed"
   ],
   "note": "Every kind of Body, every environment, every reachable heap, every later history."
  },
  {
   "property": "C06",
   "status": "proved",
   "theorems": [
    "C06_closed_exactly_once"
   ],
   "note": "Every program that passes the Reader to a constructor once; fewer than 2^31 Bodies (see C48)."
  },
  {
   "property": "C07",
   "status": "proved",
   "theorems": [
    "C07_close_errors"
   ],
   "note": "Same setting as C06."
  },
  {
   "property": "C08",
   "status": "proved",
   "theorems": [
    "C08_memory",
    "C08_seekable",
    "C08_stream",
    "C08_refuted",
    "C08_refuted_remaining"
   ],
   "note": "Two continuations with the same calls on one handle give it the same results, for in-memory Bodies, fault-free seekable sources and streams (BytesRemaining excepted, for which it is refuted). C08_refuted: a passing fault of a seekable source spreads to other copies."
  },
  {
   "property": "C09",
   "status": "proved",
   "theorems": [
    "C09_seek",
    "C09_refuted"
   ],
   "note": "C09_seek states every case, including the overflow on which the property as written fails (C09_refuted)."
  },
  {
   "property": "C10",
   "status": "proved",
   "theorems": [
    "C10_failed_stays_failed"
   ],
   "note": "All kinds of Body, every state of the outside world."
  },
  {
   "property": "C11",
   "status": "proved",
   "theorems": [
    "C11_count_and_buffer",
    "C11_no_more_than_announced"
   ],
   "note": "All kinds. Seeker and ReaderAt Bodies lend part of p to the Reader; nothing beyond the lent part changes."
  },
  {
   "property": "C12",
   "status": "proved",
   "theorems": [
    "C12_no_panic",
    "C12_rules_needed"
   ],
   "note": "Every command of every program; the rules for counts and sizes are shown to be needed."
  },
  {
   "property": "C13",
   "status": "proved",
   "theorems": [
    "C13_exact_buffer"
   ],
   "note": ""
  },
  {
   "property": "C14",
   "status": "proved",
   "theorems": [
    "C14_bounded_read_ahead",
    "C14_other_calls",
    "C14_within_length"
   ],
   "note": ""
  },
  {
   "property": "C15",
   "status": "proved",
   "theorems": [
    "C15_never_again"
   ],
   "note": ""
  },
  {
   "property": "C16",
   "status": "proved",
   "theorems": [
    "C16_iteration_order_irrelevant"
   ],
   "note": "updateStart is the only iteration over the map in the package."
  },
  {
   "property": "C17",
   "status": "proved",
   "theorems": [
    "C17_unwrap_while_open",
    "C17_unwrap_in_memory"
   ],
   "note": ""
  },
  {
   "property": "C18",
   "status": "proved",
   "theorems": [
    "C18_from_reader_and_length",
    "C18_from_reader",
    "C18_from_body"
   ],
   "note": "The Reader's methods are arbitrary. FromReaderAndLength applied to a value that is itself a Body is not modelled (FromReader is)."
  },
  {
   "property": "C19",
   "status": "partial",
   "theorems": [
    "C19_partial",
    "C19_refuted",
    "C19_refuted_WriteTo"
   ],
   "note": "False for WriteTo and for ReadAt with a negative offset (refuted); proved for all programs using neither."
  },
  {
   "property": "C20",
   "status": "proved",
   "theorems": [
    "C20_writes_unread",
    "C20_at_end",
    "C20_refuted"
   ],
   "note": "The last part of the property is false after a short write (C20_refuted)."
  },
  {
   "property": "C21",
   "status": "proved",
   "theorems": [
    "C21_returns_EOF",
    "C21_refuted"
   ],
   "note": "The property is false: it is proved that WriteTo on every open Empty Body returns io.EOF."
  },
  {
   "property": "C22",
   "status": "proved",
   "theorems": [
    "C22_refuted",
    "C22_always_empty"
   ],
   "note": "False of the code: the compact encoding is copied into a slice of length 0, so FromJSON and WithJSON always yield an empty body. Proved for every value and every encoding."
  },
  {
   "property": "C23",
   "status": "proved",
   "theorems": [
    "C23_pretty",
    "C23_length",
    "C23_strip",
    "C23_proto",
    "C23_fails"
   ],
   "note": "The encoders of encoding/json and protobuf are arguments: the theorems hold for whatever bytes or error they produce."
  },
  {
   "property": "C24",
   "status": "proved",
   "theorems": [
    "C24_memory",
    "C24_readerat",
    "C24_readerat_whole",
    "C24_seeker",
    "C24_seeker_whole",
    "C24_stream",
    "C24_stream_whole",
    "C24_empty"
   ],
   "note": "One theorem per kind of Body: bytes in memory, io.ReaderAt, io.Seeker, plain stream (buffered) and Empty. For an Empty body Serve returns io.EOF and sends nothing; C24_empty says exactly that. The client is any world satisfying 'accepting'."
  },
  {
   "property": "C25",
   "status": "partial",
   "theorems": [
    "C25_refuted",
    "C25_refuted_panic",
    "C25_refuted_reader",
    "C25_closed_unless_push_fails"
   ],
   "note": "False of the code: after a failed push, or a panic of the writer or of the Reader, the Body stays open (C25_refuted, C25_refuted_panic, C25_refuted_reader). Proved instead: every Serve that returns has closed the Body unless a push failed."
  },
  {
   "property": "C26",
   "status": "proved",
   "theorems": [
    "C26_headers"
   ],
   "note": ""
  },
  {
   "property": "C27",
   "status": "proved",
   "theorems": [
    "C27_pushes",
    "C27_unsupported"
   ],
   "note": ""
  },
  {
   "property": "C28",
   "status": "proved",
   "theorems": [
    "C28_once",
    "C28_stays",
    "C28_first",
    "C28_second",
    "C28_maybe"
   ],
   "note": "All reachable states of the whole program (bodies, builders, responses, writers, adaptors), any client. Header() and the outside WriteHeader may do anything."
  },
  {
   "property": "C29",
   "status": "proved",
   "theorems": [
    "C29_bytes"
   ],
   "note": "Counts are int64: equality modulo 2^64."
  },
  {
   "property": "C30",
   "status": "proved",
   "theorems": [
    "C30_head",
    "C30_no_content",
    "C30_Write",
    "C30_ReadFrom_memory",
    "C30_ReadFrom_readerat",
    "C30_ReadFrom_seeker",
    "C30_ReadFrom_stream"
   ],
   "note": "Nothing reaches the underlying writer (all histories); Write reports full success; ReadFrom reads a source that is a Body to its end, one theorem per kind of Body, under the Reader contracts of C24. Sources that are not Bodies are not modelled."
  },
  {
   "property": "C31",
   "status": "proved",
   "theorems": [
    "C31_saw",
    "C31_refuted"
   ],
   "note": "The property as wished is false for ReadFrom (C31_refuted); C31_saw says exactly what SawError reports."
  },
  {
   "property": "C32",
   "status": "proved",
   "theorems": [
    "C32_once",
    "C32_new",
    "C32_capabilities",
    "C32_flusher",
    "C32_readerfrom"
   ],
   "note": "CloseNotify and Hijack are not modelled as calls; C32_capabilities shows their type assertions hold. Foreign implementations of the Writer interface are not modelled."
  },
  {
   "property": "C33",
   "status": "proved",
   "theorems": [
    "C33_response_status",
    "C33_bad_status",
    "C33_bad_redirect",
    "C33_built_status"
   ],
   "note": "Every history of calls of the modelled packages, including handlers. Out-of-range codes panic and leave the whole state unchanged."
  },
  {
   "property": "C34",
   "status": "partial",
   "theorems": [
    "C34_refuted",
    "C34_build",
    "C34_needs_body",
    "C34_decimal"
   ],
   "note": "False of the code for header maps handed to WithHeaders with a non-canonical spelling of Content-Type (C34_refuted): Content-Type is then sent twice. C34_build states exactly what Build adds, comparing keys as spelled."
  },
  {
   "property": "C35",
   "status": "proved",
   "theorems": [
    "C35_resets",
    "C35_fixed",
    "C35_response_untouched",
    "C35_tidy_response"
   ],
   "note": "Every earlier history in C35_fixed. PageGenerators made outside must not return a header map that existed at the Build (returns_only); Serve, which makes the ResponseWriter's header share slices with the Response's, is not among the later commands."
  },
  {
   "property": "C36",
   "status": "proved",
   "theorems": [
    "C36_copy",
    "C36_copy_leaves_original",
    "C36_builder_untouched",
    "C36_with_headers",
    "C36_with_headers_leaves",
    "C36_tidy_owned",
    "C36_tidy_builder"
   ],
   "note": "Includes writes to elements, appending into spare capacity and reslicing. Same restrictions on PageGenerators and Serve as C35."
  },
  {
   "property": "C37",
   "status": "proved",
   "theorems": [
    "C37_memory",
    "C37_readerat",
    "C37_readerat_whole",
    "C37_seeker",
    "C37_seeker_whole",
    "C37_stream",
    "C37_stream_whole",
    "C37_headers"
   ],
   "note": "Copy succeeds; both Responses give the same bytes in either order (per kind of Body), and the same status and headers."
  },
  {
   "property": "C38",
   "status": "proved",
   "theorems": [
    "C38_redirect_page",
    "C38_needs_location",
    "C38_harmless",
    "C38_escape",
    "C38_trim"
   ],
   "note": "Default page generator. Every location up to the length of the longest Go slice."
  },
  {
   "property": "C39",
   "status": "proved",
   "theorems": [
    "C39_error_page",
    "C39_needs_error"
   ],
   "note": "Default page generator; net/http's StatusText is an arbitrary function."
  },
  {
   "property": "C40",
   "status": "proved",
   "theorems": [
    "C40_request",
    "C40_returns",
    "C40_escapes",
    "C40_one_status",
    "C40_counted"
   ],
   "note": "For every handler (a tree of calls ending in return or panic) and every outside world. C40_escapes says exactly which panics escape. Handlers that call ServeHTTP themselves are not modelled."
  },
  {
   "property": "C41",
   "status": "partial",
   "theorems": [
    "C41_refuted",
    "C41_labels",
    "C41_partial"
   ],
   "note": "Refuted as stated: label 0 while the client sees 500. C41_labels says exactly what the labels are; C41_partial proves the property when a status had been sent before the deferred function."
  },
  {
   "property": "C42",
   "status": "proved",
   "theorems": [
    "C42_linearizable",
    "C42_one_body"
   ],
   "note": "for any set of known handles that are copies of one Body (any kind), starting in any reachable quiet state, every interleaving of method calls has a linearization with the same outcomes, and the same final state when all calls have ended; calls on unrelated Bodies are out of scope because an arbitrary outside world could tell their order apart inside a call"
  },
  {
   "property": "C43",
   "status": "proved",
   "theorems": [
    "C43_progress",
    "C43_finish",
    "C43_order",
    "C43_unlock",
    "C43_released"
   ],
   "note": "Goroutines interleave over the same programs as in the sequential model. A goroutine whose Reader keeps it in a loop (buffered, (0,nil) for ever) counts as not returning."
  },
  {
   "property": "C44",
   "status": "proved",
   "theorems": [
    "C44_exclusive"
   ],
   "note": "Assumes that each Reader was given to at most one constructor call; C44_misuse shows that this is needed."
  },
  {
   "property": "C45",
   "status": "partial",
   "theorems": [
    "C45_refuted",
    "C45_partial"
   ],
   "note": "False for seekerBody.BytesRemaining, as the property says; C45_partial shows that it is the only exception."
  },
  {
   "property": "C46",
   "status": "partial",
   "theorems": [
    "C46_exact_memory",
    "C46_exact_seekable",
    "C46_exact_stream",
    "C46_never_negative_partial",
    "C46_refuted"
   ],
   "note": "Exact for Bodies in memory, for sources without faults, and for streams with any Reader (exact, -1, or the Reader delivers less than declared). The sign is right for all kinds but Seeker Bodies over faulty sources, where the property is refuted (a copy at a larger offset announces -6). After a failed WriteTo of a byte Body the number is refuted by C20_refuted."
  },
  {
   "property": "C47",
   "status": "proved",
   "theorems": [
    "C47_returns",
    "C47_fuel_irrelevant",
    "C47_silent_spins"
   ],
   "note": "len(p)+65536 Reader calls always suffice; a silent Reader makes Read spin for every bound."
  },
  {
   "property": "C48",
   "status": "partial",
   "theorems": [
    "C48_reader_stays_open_partial",
    "C48_refuted"
   ],
   "note": "Proved for fewer than 2^31 Bodies; refuted beyond (2^31 copies)."
  },
  {
   "property": "C49",
   "status": "proved",
   "theorems": [
    "C49_header_helpers",
    "C49_header_helpers_raise",
    "C49_setters",
    "C49_setters_raise",
    "C49_encoders",
    "C49_encoders_raise",
    "C49_same_header",
    "C49_canonical_twice",
    "C49_base64"
   ],
   "note": "Appending (WithHeader with appendToExisting, WithDigest) assumes that the program has not itself made two header entries share one array. The body of WithJSON is empty, see C22."
  },
  {
   "property": "C50",
   "status": "proved",
   "theorems": [
    "C50_each_call",
    "C50_accepts",
    "C50_read_line",
    "C50_readat_line",
    "C50_nil"
   ],
   "note": "Formatting is not modelled. The mutex is not modelled: every call holds it only while it takes its line."
  },
  {
   "property": "C51",
   "status": "partial",
   "theorems": [
    "C51_body",
    "C51_shared_partial"
   ],
   "note": "Body objects: no exception. Shared objects: except the load of C45."
  },
  {
   "property": "C52",
   "status": "proved",
   "theorems": [
    "C52_memory",
    "C52_seekable",
    "C52_stream"
   ],
   "note": ""
  },
  {
   "property": "C53",
   "status": "partial",
   "theorems": [
    "C53_request",
    "C53_memory",
    "C53_empty",
    "C53_refuted"
   ],
   "note": "False for a Handler that answers with an empty body (C53_refuted, C53_empty: the client gets the right response, but WriteTo of an empty Body returns EOF, so the Adaptor counts a panic and calls OnPanic). Proved for every body that delivers its bytes (C53_request, with C24) and exactly for non-empty bytes in memory (C53_memory)."
  },
  {
   "property": "C54",
   "status": "partial",
   "theorems": [
    "C54_no_other_panic",
    "C54_readerat_cursors",
    "C54_seeker_cursors",
    "C54_one_stream",
    "C54_ideal_cursors",
    "C54_close_seekable",
    "C54_close_refuted"
   ],
   "note": "Readers that panic outside Close: all programs. Panic in Close: proved for Bodies of seekable Readers, false of buffered Bodies (refuted with a witness). Locks are unlocked by defer (cited in PanicModel.v), so that they are free after a panic."
  },
  {
   "property": "C55",
   "status": "proved",
   "theorems": [
    "C55_body_is_source",
    "C55_nested_cursors",
    "C55_nested_length",
    "C55_next_layer",
    "C55_nested_close"
   ],
   "note": "The lower Body is used through the upper one only, and its Reader through it only. For a streaming lower Body see C56."
  },
  {
   "property": "C56",
   "status": "proved",
   "theorems": [
    "C56_body_is_stream",
    "C56_nested_cursors",
    "C56_next_layer",
    "C56_nested_close"
   ],
   "note": "The lower Body is used through the upper one only, and its Reader through it only. The lower fuel exceeds the length of the stream, fewer than 2^62 bytes are read in all, and the end error is not ambiguous (which it would be if the Reader stopped exactly at the declared length with an error other than io.EOF)."
  },
  {
   "property": "C57",
   "status": "proved",
   "theorems": [
    "C57_readerat_faults",
    "C57_seeker_faults",
    "C57_readerat_short",
    "C57_seeker_short",
    "C57_nested_short",
    "C57_then_exact"
   ],
   "note": "Sources that fail, deliver short, or end before the announced length; ReadAt and Seek+Read sources, and seekable Bodies as sources. Streaming sources are C04's and C56's."
  },
  {
   "property": "C58",
   "status": "proved",
   "theorems": [
    "C58_memory",
    "C58_empty",
    "C58_readerat",
    "C58_seeker",
    "C58_stream",
    "C58_refuted"
   ],
   "note": "For bodies that have the announced bytes. C58_refuted: a source shorter than declared is sent under the declared Content-Length and Serve reports no error."
  },
  {
   "property": "C59",
   "status": "proved",
   "theorems": [
    "C59_memory",
    "C59_empty",
    "C59_readerat",
    "C59_seeker",
    "C59_stream",
    "C59_readerat_faults",
    "C59_seeker_faults",
    "C59_readerat_short",
    "C59_seeker_short",
    "C59_refuted"
   ],
   "note": "C59_refuted: with a body in memory, a client that breaks the rule of io.Writer makes Serve lose bytes and return nil. For sources that may fail at any time nothing is said about completeness (C57: a failed read lowers the length)."
  },
  {
   "property": "C60",
   "status": "proved",
   "theorems": [
    "C60_memory",
    "C60_empty",
    "C60_readerat",
    "C60_seeker",
    "C60_stream",
    "C60_readerat_faults",
    "C60_seeker_faults",
    "C60_readerat_short",
    "C60_seeker_short"
   ],
   "note": "For sources that may fail at any time nothing is said about completeness (C57: a failed read lowers the length)."
  },
  {
   "property": "C61",
   "status": "proved",
   "theorems": [
    "C61_truncated",
    "C61_memory"
   ],
   "note": "C61_truncated applies to every body for which C60 gives owns_up; C61_memory is its instance for bytes in memory."
  },
  {
   "property": "C62",
   "status": "proved",
   "theorems": [
    "C62_memory",
    "C62_readerat",
    "C62_seeker",
    "C62_stream",
    "C62_changed_header_refuted"
   ],
   "note": "The header must not be changed in place in between, not even in the header map of a client that has been answered: C62_changed_header_refuted shows that this changes what later clients get."
  },
  {
   "property": "C63",
   "status": "proved",
   "theorems": [
    "C63_values",
    "C63_builder",
    "C63_response",
    "C63_fold",
    "C63_evolves",
    "C63_build",
    "C63_copy_builder",
    "C63_copy_response",
    "C63_lifetime"
   ],
   "note": "For programs that do not edit headers in place (C62_changed_header_refuted shows what happens otherwise) and use the default page generator. C63_evolves needs the size bounds of go_rcmd; what its values depend on besides the calls is the contents of the header WithHeaders is given and the number of the next new Body."
  },
  {
   "property": "C64",
   "status": "proved",
   "theorems": [
    "C64_value",
    "C64_memory",
    "C64_lifetime",
    "C64_handler"
   ],
   "note": "Same restrictions on the program as C63 and C62. C64_value takes the conclusion of C62 (template) as a hypothesis, so that it applies to all kinds of bodies; C64_memory and C64_lifetime are about bytes in memory, where the hypothesis is proved. C64_handler is about a Handler that makes a non-empty body of bytes and builds its answer by any list of calls that do not raise (an empty body makes the Adaptor report io.EOF: C53_refuted)."
  },
  {
   "property": "C65",
   "status": "proved",
   "theorems": [
    "C65_closed_once",
    "C65_serve",
    "C65_request",
    "C65_request_fine",
    "C65_opening",
    "C65_opening_fine"
   ],
   "note": "Readers do not panic here (C45, C46 are about those that do). Failed pushes and Serve that panics are excluded: C25_refuted shows that the Body is then left open. A client's ReadFrom may Copy the Body it is given, hence the exception for Bodies made during Serve."
  },
  {
   "property": "C66",
   "status": "proved",
   "theorems": [
    "C66_books",
    "C66_request"
   ],
   "note": "For clients that are not wrapped before (C66_example_wrapped shows why) and Handlers that do not write to clients themselves. Bytes: if they fit an int64. Label 0 where the Adaptor sent the 500 itself, as in C41."
  },
  {
   "property": "C67",
   "status": "proved",
   "theorems": [
    "C67_conversations",
    "C67_request"
   ],
   "note": "For clients that are not wrapped before and Handlers that do not write to clients themselves, as in C66."
  },
  {
   "property": "C68",
   "status": "proved",
   "theorems": [
    "C68_serve",
    "C68_readfrom"
   ],
   "note": "For Bodies over a Reader; Bodies in memory have no Reader whose error could be lost (what their WriteTo returns: C19, C20, C59)."
  }
 ]
}
