{"id": "C01", "title": "In-memory bodies are independent ideal cursors", "statement": "A Body made by FromBytes, FromString or Empty, together with everything obtained from it by Copy, behaves like a set of independent cursors over one immutable byte string: every BytesRemaining, Read, Seek, ReadAt, Copy, Close and Unwrap returns exactly what the ideal cursor machine returns, whatever else the program does with other Bodies in between.", "quantifier": "every byte string, every finite history of calls on every handle (all buffer sizes, offsets, whence values), every environment", "why_tests_cant": "The tests drive one 4-byte body through one fixed script; the claim is about all contents, buffer sizes and call orders, and about interleavings with other bodies.", "anchors": ["body/bytes.go:bytesBody", "body/empty.go:emptyBody", "body/body.go:FromBytes", "body/body.go:FromString", "body/body.go:Empty"]}
{"id": "C02", "title": "ReaderAt-backed bodies are independent ideal cursors (fault-free source)", "statement": "If the Reader passed to FromReader/FromReaderAndLength implements io.ReaderAt honestly over a fixed byte string and the length is known and not larger than it, then the Body and all its copies behave like independent ideal cursors over the first `length` bytes (the only freedom being an io.EOF reported together with the final bytes).", "quantifier": "every content, every length not exceeding it, every honest ReaderAt, every finite history over all copies interleaved with any other Bodies", "why_tests_cant": "Copies share a mutable length and a reader; only a proof covers all interleavings of copies, offsets and buffer sizes.", "anchors": ["body/readerat.go:readerAtBody", "body/readerat.go:readerAtCommon", "body/body.go:FromReaderAndLength"]}
{"id": "C03", "title": "Seeker-backed bodies are independent ideal cursors (fault-free source)", "statement": "If the Reader implements io.Seeker (not io.ReaderAt) honestly over a fixed byte string, then the Body and all its copies behave like independent ideal cursors over it even though they share a single physical cursor. (Holds when the source's Read fills the buffer whenever it can; false when it returns short reads.)", "quantifier": "every content, every honest seekable source, every finite history over all copies", "why_tests_cant": "The shared physical cursor is re-seeked by every copy; short reads near the end are legal for io.Reader and are never produced by the mock reader.", "anchors": ["body/seeker.go:seekerBody", "body/seeker.go:seekerCommon.readAt"]}
{"id": "C04", "title": "Buffered bodies are independent ideal cursors for any chunking of the stream", "statement": "For a plain io.Reader (no Seek/ReadAt), the Body and all its copies each deliver exactly the Reader's byte stream (truncated at the declared length if there is one) from the copy's own position, followed by the same terminal error, no matter how the Reader chunks its output or in which order the copies are read, copied and closed.", "quantifier": "every stream, every chunking including zero-byte reads, every declared length or none, every history over all copies", "why_tests_cant": "Tests use one reader, one chunk and no copies; buffer trimming depends on the whole history of all copies' offsets.", "anchors": ["body/buffered.go:bufferedBody.Read", "body/buffered.go:bufferedCommon.advance", "body/buffered.go:bufferedCommon.updateStart"]}
{"id": "C05", "title": "Close is final", "statement": "After a Body has been closed, Read, Seek, ReadAt, WriteTo and Close on it return fs.ErrClosed without touching the Reader, BytesRemaining is 0, Unwrap is nil, and Copy returns a Body that is itself closed; this stays true for ever, whatever happens to other handles. AlreadyClosed() has the same behaviour.", "quantifier": "every kind of Body, every environment (including misbehaving Readers), every later history", "why_tests_cant": "The after-close script is run once per kind; the claim is about every later call in every state.", "anchors": ["body/closed.go", "body/empty.go", "body/bytes.go", "body/seeker.go", "body/readerat.go", "body/buffered.go"]}
{"id": "C06", "title": "The backing Reader is closed exactly once, by the last Close", "statement": "If the Reader implements io.Closer, then Reader.Close is called exactly once over the life of a Body and all its copies: not while any copy is open, and precisely in the Close call that closes the last open copy. If it does not implement io.Closer it is never closed.", "quantifier": "every history of Copy/Close/other calls over any number of copies (fewer than 2^31 handles), every environment", "why_tests_cant": "Reference counting is right only if it is right for every order of copies and closes.", "anchors": ["body/seeker.go:seekerCommon.unref", "body/readerat.go:readerAtCommon.unref", "body/buffered.go:bufferedCommon.unref"]}
{"id": "C07", "title": "Close returns the right error to the right caller", "statement": "A Close that is not the last one of its family returns nil; the last one returns exactly the error of the Reader's Close (nil if not an io.Closer); any further Close returns fs.ErrClosed.", "quantifier": "every history over copies, every environment", "why_tests_cant": "Depends on which copy happens to be last, i.e. on the whole history.", "anchors": ["body/body.go:Body.Close", "body/seeker.go:seekerCommon.unref", "body/readerat.go:readerAtCommon.unref", "body/buffered.go:bufferedCommon.unref"]}
{"id": "C08", "title": "Copies do not interfere", "statement": "The results observed through one copy do not depend on what is done with the other copies: deleting all calls on other handles from a history leaves every result on the remaining handle unchanged. (Holds for in-memory bodies always and for Reader-backed bodies on fault-free sources; false for shared sources that report a transient error.)", "quantifier": "every history, every choice of handle", "why_tests_cant": "It is a relational property of pairs of histories.", "anchors": ["body/body.go:Body.Copy", "body/seeker.go:seekerBody.Read", "body/readerat.go:readerAtBody.Read"]}
{"id": "C09", "title": "Seek arithmetic", "statement": "Seek on an open seekable Body returns base+offset clamped to the end and clears a pending EOF/error; it fails without moving the cursor exactly when whence is unknown, the start offset is negative or the computed position is negative. (False for int64 offsets whose sum overflows.)", "quantifier": "every int64 offset, every int whence, every state of every seekable kind", "why_tests_cant": "2^64 offsets per state; the overflow corner is never sampled.", "anchors": ["body/bytes.go:bytesBody.Seek", "body/empty.go:emptyBody.Seek", "body/seeker.go:seekerBody.Seek", "body/readerat.go:readerAtBody.Seek", "body/errors.go"]}
{"id": "C10", "title": "A failed Read stays failed", "statement": "Once Read on a handle has returned a non-nil error, every later Read on this handle returns 0 bytes and the same error without touching the Reader, until a successful Seek or Close on that same handle.", "quantifier": "every kind, every environment (any error at any time), every history on other handles in between", "why_tests_cant": "The error may come at any point of any history.", "anchors": ["body/bytes.go:bytesBody.Read", "body/empty.go:emptyBody.Read", "body/seeker.go:seekerBody.Read", "body/readerat.go:readerAtBody.Read", "body/buffered.go:bufferedBody.Read"]}
{"id": "C11", "title": "Read and ReadAt never over-report and never write outside the reported range", "statement": "Whenever Read or ReadAt returns normally, 0 <= n <= len(p), the buffer keeps its length, and bytes of p beyond min(len(p), bytes available) are untouched.", "quantifier": "every kind, every state, every environment, every p", "why_tests_cant": "Must hold for Readers that lie about their byte counts, in every state.", "anchors": ["body/bytes.go", "body/seeker.go:seekerCommon.readAt", "body/readerat.go:readerAtCommon.readAt", "body/buffered.go:bufferedBody.Read"]}
{"id": "C12", "title": "No history panics on a rule-abiding Reader", "statement": "If the Reader always reports 0 <= n <= len(p) and non-negative sizes, then no history of Body calls panics: no internal assertion fails, no slice index is out of range and no nil is dereferenced.", "quantifier": "every history over every number of bodies and copies, every environment obeying the byte-count rule", "why_tests_cant": "Assertions guard invariants over all reachable states of all copies.", "anchors": ["body/buffered.go:bufferedCommon.advance", "body/buffered.go:bufferedCommon.updateStart", "body/buffered.go:bufferedBody.Read", "body/seeker.go:seekerCommon.readAt", "body/readerat.go:readerAtCommon.readAt"]}
{"id": "C13", "title": "Buffered bodies keep exactly the bytes still needed", "statement": "The shared buffer of a buffered Body always holds exactly the part of the stream from the smallest offset of any open copy up to the furthest byte fetched: nothing a copy still needs is dropped and nothing every copy has consumed is retained.", "quantifier": "every history over all copies, every environment", "why_tests_cant": "Needs the invariant linking every copy's offset to the buffer in every reachable state.", "anchors": ["body/buffered.go:bufferedCommon.updateStart", "body/buffered.go:bufferedCommon.advance", "body/buffered.go:bufferedCommon.ref", "body/buffered.go:bufferedCommon.unref"]}
{"id": "C14", "title": "Buffered read-ahead is bounded and never passes the declared length", "statement": "A buffered Body asks the Reader only for bytes it may serve: never beyond the declared length, and never more than one 64 KiB block rounding beyond what the furthest Read asked for.", "quantifier": "every history, every declared length, every environment", "why_tests_cant": "Concerns every request made to the Reader in every history.", "anchors": ["body/buffered.go:bufferedBody.Read", "body/buffered.go:blockSize"]}
{"id": "C15", "title": "A buffered Body never reads a Reader that has failed or been closed", "statement": "After the Reader has returned an error (or its declared length has been reached) or has been closed, a buffered Body never calls its Read again.", "quantifier": "every history over all copies, every environment", "why_tests_cant": "Must hold after every possible failure point.", "anchors": ["body/buffered.go:bufferedBody.Read", "body/buffered.go:bufferedCommon.unref"]}
{"id": "C16", "title": "Buffer trimming does not depend on map iteration order", "statement": "The effect of recomputing the buffer start is the same for every order in which Go iterates over the set of open copies.", "quantifier": "every set of copies, every offset assignment, every permutation", "why_tests_cant": "Go randomises the order; a test sees one order.", "anchors": ["body/buffered.go:bufferedCommon.updateStart"]}
{"id": "C17", "title": "Unwrap exposes the Reader exactly while the handle is open", "statement": "Unwrap on a Reader-backed Body returns the original Reader as long as this handle is open and nil afterwards; in-memory Bodies always return nil.", "quantifier": "every kind, every history", "why_tests_cant": "Must hold in every reachable state, in particular when other copies are closed.", "anchors": ["body/seeker.go:seekerBody.Unwrap", "body/readerat.go:readerAtBody.Unwrap", "body/buffered.go:bufferedBody.Unwrap"]}
{"id": "C18", "title": "FromReader picks the promised implementation and length", "statement": "FromReader/FromReaderAndLength return: the same Body if given a Body (FromReader); a seekable ReadAt-capable Body whenever the Reader is (ReaderAt and (Seeker or File)) or Seeker; otherwise a streaming Body. The initial BytesRemaining is the caller's length if non-negative, else Stat size, else Seek end, else -1; a failing Stat or Seek is returned as error and no Body is created. A Reader whose length was found by Seek is left rewound to 0.", "quantifier": "every combination of capabilities, every length argument, every environment", "why_tests_cant": "16 capability combinations times all lengths and all failures.", "anchors": ["body/body.go:FromReader", "body/body.go:FromReaderAndLength"]}
{"id": "C19", "title": "Empty() is indistinguishable from a zero-length byte Body", "statement": "Empty (and FromBytes of an empty slice) behaves exactly like an in-memory Body holding zero bytes. (False for WriteTo and for ReadAt with a negative offset.)", "quantifier": "every history of calls", "why_tests_cant": "Observational equivalence quantifies over all histories.", "anchors": ["body/empty.go", "body/bytes.go"]}
{"id": "C20", "title": "WriteTo of a byte Body writes exactly the unread remainder", "statement": "WriteTo on an open FromBytes Body that has not reported EOF hands the writer exactly the unread bytes in one Write, returns the writer's count and error, and advances the cursor by this count; afterwards BytesRemaining and what Read can still deliver agree. (The last part is false after a failed or short write.)", "quantifier": "every content, cursor, writer behaviour", "why_tests_cant": "All writer behaviours including partial writes at every point.", "anchors": ["body/bytes.go:bytesBody.WriteTo"]}
{"id": "C21", "title": "WriteTo on an empty Body succeeds", "statement": "Like every io.WriterTo, WriteTo on an open Empty Body returns (0, nil), so that io.Copy from it succeeds. (False: it returns io.EOF.)", "quantifier": "every state of an open Empty body, every writer", "why_tests_cant": "Never called by the tests; io.Copy passes the error through.", "anchors": ["body/empty.go:emptyBody.WriteTo"]}
{"id": "C22", "title": "FromJSON serves the encoded value", "statement": "Reading the Body returned by FromJSON(v) to the end yields the JSON encoding of v. (False: the Body is always empty.)", "quantifier": "every encodable value", "why_tests_cant": "There is no test; the claim is over all values.", "anchors": ["body/body.go:fromJSONImpl"]}
{"id": "C23", "title": "FromPrettyJSON serves the encoding with CRLF line ends", "statement": "FromPrettyJSON(v) serves exactly the indented encoding with every LF replaced by CR LF and nothing else changed; its BytesRemaining is the encoding's length plus its number of LFs; deleting the inserted CRs gives the encoding back. An encoding failure panics and creates no Body.", "quantifier": "every encoder output", "why_tests_cant": "Claim about all byte strings the encoder may produce.", "anchors": ["body/body.go:fromJSONImpl"]}
{"id": "C24", "title": "Serve delivers the whole body", "statement": "Response.Serve on a writer that accepts everything sends the status, then exactly the remaining bytes of the body in order, returns nil and leaves the body closed. (False for Empty bodies, which make Serve return io.EOF.)", "quantifier": "every body kind, content, cursor and chunking of the source; HEAD and 204 excluded", "why_tests_cant": "Copy loop over any number of blocks and any chunking.", "anchors": ["response/response.go:Response.Serve"]}
{"id": "C25", "title": "Serve always consumes its Body", "statement": "Whatever happens, when Serve returns (or panics) the Response's Body has been closed. (False if a server push fails, if the writer panics and if the Reader panics.)", "quantifier": "every header set, pusher behaviour, writer behaviour, body kind", "why_tests_cant": "Quantifies over every failure point of pusher, writer and reader.", "anchors": ["response/response.go:Response.Serve"]}
{"id": "C26", "title": "Serve transfers headers exactly", "statement": "After Serve the writer's header map equals its previous contents overridden by all the Response's headers except Push, and this happens before the status is sent.", "quantifier": "every pair of header maps", "why_tests_cant": "All maps and key spellings.", "anchors": ["response/response.go:Response.Serve", "response/response.go:headerPush"]}
{"id": "C27", "title": "Serve pushes every Push URL in order", "statement": "If the writer is an http.Pusher, Serve calls Push once for each value of the Push header in order, ignoring ErrNotSupported and stopping at the first other error, which it returns before anything is written; otherwise it pushes nothing.", "quantifier": "every list of URLs, every pusher behaviour", "why_tests_cant": "All lists and all failure points.", "anchors": ["response/response.go:Response.Serve"]}
{"id": "C28", "title": "At most one header reaches the client, and Status reports it", "statement": "Through a Writer obtained from NewWriter, the underlying WriteHeader is called at most once, always before the first byte of body, with the value that Status() reports from then on; Status() is 0 before. A second WriteHeader raises and does not reach the client; MaybeWriteHeader after the first is a no-op.", "quantifier": "every history of WriteHeader/MaybeWriteHeader/Write/Flush/ReadFrom/Push calls, every environment", "why_tests_cant": "All call orders.", "anchors": ["response/writer.go:basicWriter"]}
{"id": "C29", "title": "BytesWritten counts exactly the bytes accepted downstream", "statement": "BytesWritten() equals the sum of the byte counts reported by the underlying Write and ReadFrom calls.", "quantifier": "every history, every environment", "why_tests_cant": "All call orders and partial writes.", "anchors": ["response/writer.go:basicWriter.Write", "response/writer.go:fancyWriter.ReadFrom"]}
{"id": "C30", "title": "HEAD and 204 responses send no body", "statement": "For a HEAD request or after status 204, no Write or ReadFrom ever reaches the underlying writer; Write still reports full success and ReadFrom still drains its source.", "quantifier": "every history, every environment", "why_tests_cant": "All call orders, including implicit headers.", "anchors": ["response/writer.go:basicWriter.Write", "response/writer.go:fancyWriter.ReadFrom"]}
{"id": "C31", "title": "SawError reports downstream failures", "statement": "SawError() is true iff a downstream Write or ReadFrom has returned an error or WriteHeader was called twice. (False for ReadFrom.)", "quantifier": "every history, every environment", "why_tests_cant": "All call orders and failure points.", "anchors": ["response/writer.go:basicWriter.SawError", "response/writer.go:fancyWriter.ReadFrom"]}
{"id": "C32", "title": "NewWriter wraps once and preserves capabilities", "statement": "NewWriter returns an already wrapped writer unchanged, and otherwise a wrapper which is a Flusher iff the underlying writer is usable as one (Flusher), and offers CloseNotifier/Hijacker/ReaderFrom iff the underlying writer offers all four; the wrapper's capability calls never fail a type assertion.", "quantifier": "every combination of capabilities", "why_tests_cant": "All capability combinations and nested wrapping.", "anchors": ["response/writer.go:NewWriter"]}
{"id": "C33", "title": "Response status is always between 200 and 999", "statement": "Every Response produced by any sequence of Builder calls has a status in [200,999]; out-of-range codes raise and leave the Builder unchanged.", "quantifier": "every history of Builder calls", "why_tests_cant": "All call orders, defaults and integers.", "anchors": ["response/builder.go:Builder.WithStatus", "response/builder.go:Builder.Build", "response/response.go:Response.Status"]}
{"id": "C34", "title": "Build fills in Content-Type and Content-Length, and only if absent", "statement": "Build keeps every header specified; adds Content-Type application/octet-stream iff there was none; adds Content-Length equal (as decimal) to BytesRemaining iff there was none and the length is known; adds nothing else. (False for WithHeaders with non-canonical spelling, where Content-Type is sent twice.)", "quantifier": "every header map, every body", "why_tests_cant": "All maps and spellings.", "anchors": ["response/builder.go:Builder.Build", "response/builder.go:Builder.WithHeaders"]}
{"id": "C35", "title": "Build transfers ownership and resets the Builder", "statement": "After Build the Builder is indistinguishable from a new one with the same PageGenerator, and later use of it cannot change the built Response.", "quantifier": "every history of later Builder calls", "why_tests_cant": "All later histories; aliasing of header maps.", "anchors": ["response/builder.go:Builder.Build"]}
{"id": "C36", "title": "Builder.Copy and WithHeaders are deep", "statement": "After b2 := b1.Copy() (or WithHeaders(h)), no sequence of header operations or in-place mutations on one side is visible on the other side.", "quantifier": "every history of header operations including in-place element mutation", "why_tests_cant": "Aliasing properties quantify over all later mutations.", "anchors": ["response/builder.go:Builder.Copy", "response/builder.go:Builder.WithHeaders", "response/util.go:copyHeaders", "response/util.go:copyStrings"]}
{"id": "C37", "title": "Response.Copy serves the same response", "statement": "A Response and its Copy, served in any order, send the same status, headers and bytes, and each leaves the other's body unaffected.", "quantifier": "every response with an in-memory, ReaderAt or buffered body", "why_tests_cant": "All contents and orders.", "anchors": ["response/response.go:Response.Copy"]}
{"id": "C38", "title": "Redirect page cannot be broken out of", "statement": "The generated redirect page contains the location only in HTML-escaped form (no raw <, >, quote or ampersand from the location), sets Location to the trimmed location and Content-Length to the exact page length.", "quantifier": "every location string, every code 300..399", "why_tests_cant": "All strings.", "anchors": ["response/pagegen.go:GenerateRedirectPage", "response/builder.go:Builder.RedirectPage"]}
{"id": "C39", "title": "Error page is consistent", "statement": "ErrorPage yields status code, body 'code text CRLF', exact Content-Length, text/plain, no-cache, and records the error; it replaces all previous headers and body.", "quantifier": "every code 200..999, every previous Builder state", "why_tests_cant": "All prior states.", "anchors": ["response/pagegen.go:GenerateErrorPage", "response/builder.go:Builder.ErrorPage"]}
{"id": "C40", "title": "The Adaptor never lets a panic escape and always sends one header", "statement": "ServeHTTP returns normally whether the inner handler returns, returns a failing response or panics (only a panic of the client's WriteHeader(500) or of OnPanic itself escapes); exactly one status reaches the client (500 if none was sent before the failure); each request is counted exactly once, a panic exactly when there was one or the response failed, and OnPanic is called exactly then (panic(nil), which recover cannot tell from no panic, is not counted).", "quantifier": "every handler behaviour, every body and writer behaviour", "why_tests_cant": "All failure points.", "anchors": ["handler/adaptor.go:Adaptor.ServeHTTP", "handler/onpanic.go"]}
{"id": "C41", "title": "Metrics are labelled with the status the client saw", "statement": "The code label of the metrics of a request is the status that was sent to the client. (False when the handler fails before a status is sent: label 0, client sees 500.)", "quantifier": "every handler behaviour", "why_tests_cant": "All failure points.", "anchors": ["handler/adaptor.go:Adaptor.ServeHTTP"]}
{"id": "C42", "title": "Concurrent use is linearizable", "statement": "Any interleaving of calls from any number of goroutines on any copies of one Body gives every call the result it would have in some sequential order of the calls, consistent with real time.", "quantifier": "every number of goroutines, every schedule", "why_tests_cant": "Schedules cannot be enumerated.", "anchors": ["body/seeker.go", "body/readerat.go", "body/buffered.go"]}
{"id": "C43", "title": "Bodies cannot deadlock", "statement": "As long as calls into the Reader return, some goroutine can always make progress: the locking order body-then-shared is never violated and every lock is released.", "quantifier": "every number of goroutines, every schedule", "why_tests_cant": "Schedules cannot be enumerated.", "anchors": ["body/seeker.go", "body/readerat.go", "body/buffered.go"]}
{"id": "C44", "title": "The Reader is never used concurrently", "statement": "All calls into one Reader made by a Body and its copies are mutually exclusive.", "quantifier": "every schedule", "why_tests_cant": "Schedules cannot be enumerated.", "anchors": ["body/seeker.go:seekerCommon", "body/readerat.go:readerAtCommon", "body/buffered.go:bufferedCommon"]}
{"id": "C45", "title": "Shared state is only accessed under its lock", "statement": "Every access to the length shared by copies is made while holding the shared lock. (False: seekerBody.BytesRemaining.)", "quantifier": "every schedule", "why_tests_cant": "A data race shows only under particular schedules.", "anchors": ["body/seeker.go:seekerBody.BytesRemaining"]}
{"id": "C46", "title": "BytesRemaining is exact or -1", "statement": "BytesRemaining on any handle returns the exact number of bytes that Read can still deliver, or -1 if unknown; never any other negative number. (False for Seeker-backed copies after another copy has hit an error.)", "quantifier": "every kind, every history, every environment", "why_tests_cant": "Depends on the history of all copies.", "anchors": ["body/body.go:Body.BytesRemaining", "body/seeker.go:seekerBody.BytesRemaining"]}
{"id": "C47", "title": "Read terminates on a progressing Reader", "statement": "Read on a buffered Body makes finitely many Reader calls provided every Reader.Read makes progress (n > 0 or an error); a Reader returning (0, nil) for ever makes it spin.", "quantifier": "every progressing reader, every state", "why_tests_cant": "Termination over all readers.", "anchors": ["body/buffered.go:bufferedBody.Read"]}
{"id": "C48", "title": "Reference counts survive any number of copies", "statement": "Closing one of many copies never closes the Reader under the others, however many copies exist. (False beyond 2^31-1 copies, the counter being int32.)", "quantifier": "every number of copies", "why_tests_cant": "2^31 copies cannot be made in a test.", "anchors": ["body/seeker.go:seekerCommon.refcnt", "body/readerat.go:readerAtCommon.refcnt"]}
{"id": "C49", "title": "Builder header helpers produce the documented header", "statement": "WithHeader set/append, WithoutHeader, WithETag, WithDigest, WithContentType/Language/Encoding and WithJSON/WithProto/... change exactly the documented header (under its canonical name) and nothing else.", "quantifier": "every builder state, every argument", "why_tests_cant": "All states and strings.", "anchors": ["response/builder.go"]}
{"id": "C50", "title": "MockReader accepts exactly its script", "statement": "A MockReader returns the scripted outputs if and only if the calls made on it match the script in order; the first mismatch or surplus call panics.", "quantifier": "every script and every call sequence", "why_tests_cant": "The test double is itself untested.", "anchors": ["internal/mockreader/mockreader.go:MockReader"]}
{"id": "C51", "title": "The fields of a Body are free of data races", "statement": "No two goroutines are ever about to access the same Body object, one of them storing; the same holds of the object shared by copies, except for the load in seekerBody.BytesRemaining.", "quantifier": "every number of goroutines, every schedule", "why_tests_cant": "A data race shows only under particular schedules.", "anchors": ["body/seeker.go", "body/readerat.go", "body/buffered.go", "body/bytes.go"]}
{"id": "C52", "title": "A goroutine with a handle of its own reads as if it were alone", "statement": "If only one goroutine uses a copy of a Body, then whatever other goroutines do concurrently with other copies, the calls it makes return what they return when it makes them with no other goroutine around (but for the names of new copies and the errors of Close of a shared Reader; BytesRemaining of a stream is excepted).", "quantifier": "every interleaving of any number of goroutines, in-memory Bodies in any environment, any seekable source without faults, any stream in any chunking", "why_tests_cant": "Quantifies over all schedules and all programs of the other goroutines; a test runs a few schedules.", "anchors": ["body/body.go:Body.Copy", "body/buffered.go:bufferedBody.Read", "body/seeker.go:seekerBody.Read", "body/readerat.go:readerAtBody.Read"]}
{"id": "C53", "title": "A request is answered with the Response its Handler built, and counted as such", "statement": "The Adaptor serves a request: if the Handler returns a Response and the client accepts what it is sent, the client receives that Response's status once, its header but for Push, and the bytes of its body (none for HEAD or 204), and the metrics count one request with this status and the number of bytes sent, and no panic. For a Handler that answers with bytes in memory, the log of what the client is sent, its header and the metrics are exactly determined, also if Write fails.", "quantifier": "every Handler, state, client and Response; every string, status, method and answer of the client's Write", "why_tests_cant": "Quantifies over all Handlers, bodies and clients, and states the exact log and metrics; a test sees one request.", "anchors": ["handler/adaptor.go:Adaptor.ServeHTTP", "response/response.go:Response.Serve", "response/builder.go:Builder.Build", "body/empty.go:emptyBody.WriteTo"]}
{"id": "C54", "title": "A Reader's panic costs the program one call", "statement": "If a Reader panics in Read, ReadAt, Seek or Stat and the program recovers, then every call that does not panic returns what it would have returned had the panicked calls not been made: no cursor has moved, no byte of a stream fetched so far is lost, and nothing else panics. If a Reader panics in Close, the Body is closed all the same.", "quantifier": "every Reader and every choice of calls in which Readers panic, every program, any number of panics", "why_tests_cant": "Quantifies over all points at which a call can be cut off and over all programs going on from there; a test panics at one point.", "anchors": ["body/buffered.go:bufferedCommon.fetch", "body/buffered.go:bufferedBody.Close", "body/seeker.go:seekerBody.Read", "body/readerat.go:readerAtBody.Read", "body/body.go:FromReaderAndLength"]}
{"id": "C55", "title": "A Body made of a Body that can seek is as good as one made of its bytes", "statement": "FromReaderAndLength given a Body that can seek (made from memory, or from a Reader that serves its bytes through ReadAt or through Seek and Read, and used in any way before) makes a Body whose copies are independent cursors over the announced part of those bytes, starting at the beginning wherever the lower Body stood; without a length it finds the length of the lower Body; the lower Body neither panics nor fails to return; the construction can be repeated to any depth; and the Reader at the bottom is closed once, by the Close of the last upper handle.", "quantifier": "every lower Body that can seek, in any state, every outside world, every program on the upper Body and its copies, any number of layers", "why_tests_cant": "Quantifies over all states of the lower Body and all programs on the upper one, at any depth; a test stacks two Bodies and reads them once.", "anchors": ["body/body.go:FromReaderAndLength", "body/readerat.go:readerAtBody.ReadAt", "body/seeker.go:seekerBody.ReadAt", "body/bytes.go:bytesBody.ReadAt"]}
{"id": "C56", "title": "A Body made of a streaming Body is as good as one made of its stream", "statement": "FromReaderAndLength given a streaming Body (made from a Reader that delivers some bytes in chunks of any size and then an error, and used in any way before but still open) makes a Body whose copies are independent cursors over what the lower Body had still to deliver, cut at the declared length, and ending with the lower Body's own error or with io.EOF at the declared length; the lower Body neither panics nor fails to return; the construction can be repeated to any depth; and the Reader at the bottom is closed once, by the Close of the last upper handle.", "quantifier": "every streaming lower Body in any state, every outside world, every program on the upper Body and its copies, any number of layers", "why_tests_cant": "Quantifies over all chunkings of the stream, all states of the lower Body and all programs on the upper one, at any depth; a test stacks two Bodies and reads them once.", "anchors": ["body/body.go:FromReaderAndLength", "body/buffered.go:bufferedBody.Read", "body/buffered.go:bufferedBody.Close", "body/buffered.go:bufferedCommon"]}
{"id": "C57", "title": "Faults and overstated lengths of a seekable source never yield a wrong byte", "statement": "A Body made from a Reader with ReadAt, or with Seek and Read, that may deliver short, fail at any time, or have fewer bytes than the length announced, still answers every call on every copy: no byte delivered differs from the source's byte at that place, no byte beyond the announced length is touched, and all copies share one length that a Read ending with an error lowers to the place where it ended. If the source does not fail but merely ends before the announced length, every byte of it is delivered and io.EOF is reported at its real end only; once one copy has seen that end without anyone having used Seek, all copies behave exactly as if the real length had been announced. The same holds if the source is itself a seekable Body.", "quantifier": "every byte string, every announced length, every pattern of faults and short reads, every outside world, every program on the Body, its copies and other Bodies", "why_tests_cant": "Quantifies over all fault patterns interleaved with all programs on any number of copies sharing a length; tests inject one fault at one place.", "anchors": ["body/readerat.go:readerAtBody.Read", "body/readerat.go:readerAtBody.ReadAt", "body/seeker.go:seekerBody.Read", "body/seeker.go:seekerCommon.readAt", "body/body.go:FromReaderAndLength"]}
{"id": "C58", "title": "The Content-Length that Build fills in is the number of bytes Serve sends", "statement": "If Builder.Build fills in Content-Length for a body that is in memory, or made from a Reader that has the announced number of bytes (reached through ReadAt, through Seek and Read, or as a stream), wherever that body or copy has been read or sought to, then the value is the decimal number of bytes that Serve sends for the Response on a client that accepts everything, provided the body is not used in between. A stream of undeclared length gets a Content-Length only once its end has been met, and then the right one.", "quantifier": "every outside world, every program before and after Build, every position of the body, every byte string and chunking", "why_tests_cant": "Relates a number computed at Build time to the bytes of a later Serve for all programs in between and all positions of all copies; a test builds and serves one Response.", "anchors": ["response/builder.go:Builder.Build", "response/response.go:Response.Serve", "body/readerat.go:readerAtBody.BytesRemaining", "body/seeker.go:seekerBody.BytesRemaining", "body/buffered.go:bufferedBody.BytesRemaining", "body/bytes.go:bytesBody.BytesRemaining"]}
{"id": "C59", "title": "A failing client or source never leads to wrong bytes or to a false success", "statement": "Serve a Response whose body is in memory, empty, or made from a Reader (through ReadAt, through Seek and Read, or as a stream), on any ResponseWriter or Writer, which may accept too few bytes, fail or panic, and whatever the outcome. Then the bytes passed to the client's Write are the beginning of what the body has left, in order and without a gap; no byte is written after a Write that failed or was short; nothing is written for HEAD or 204; and Serve returns nil only if every Write took everything and, unless the client took the body with ReadFrom or the source may fail silently, only if all of it was written. This holds for sources that fail at any time, that end with another error than EOF, and that are shorter than announced. For bodies in memory the client must keep to the rule of io.Writer that a short Write reports an error.", "quantifier": "every outside world (client, Reader), every program before Serve, every position of every copy, every outcome", "why_tests_cant": "Quantifies over all failing clients and sources and all points at which they fail, and over every program before; a test fixes one client that fails once.", "anchors": ["response/response.go:Response.Serve", "response/writer.go:basicWriter.Write", "response/writer.go:fancyWriter.ReadFrom", "body/bytes.go:bytesBody.WriteTo", "body/readerat.go:readerAtBody.Read", "body/seeker.go:seekerBody.Read", "body/buffered.go:bufferedBody.Read"]}
{"id": "C60", "title": "Serve returns nil only if an honest client got the whole body", "statement": "Let a client be honest: it may fail at any time, in Write, ReadFrom, WriteHeader or Push, and may then have taken any part of what it was given, but its Write returns nil only if it took everything, and its ReadFrom only calls Read, goes on only if it took what it read, and returns nil only if it took everything up to EOF. Serve a Response on it, directly or through a Writer, with a body in memory, an empty one or one made from a Reader (ReadAt, Seek and Read, or stream), where the Reader may fail or be shorter than announced. Then the client gets a beginning of what the body has left, without gaps or wrong bytes; it gets nothing for HEAD and 204; and if Serve returns nil it got all of it, unless the source is one that may fail silently.", "quantifier": "every honest client, every source, every program before Serve, every position of every copy, every outcome", "why_tests_cant": "Quantifies over all honest clients, all places where they or the source fail and all programs before; a test fixes one client and one failure, and seldom one with ReadFrom.", "anchors": ["response/response.go:Response.Serve", "response/writer.go:basicWriter.Write", "response/writer.go:fancyWriter.ReadFrom", "body/bytes.go:bytesBody.WriteTo", "body/readerat.go:readerAtBody.Read", "body/seeker.go:seekerBody.Read", "body/buffered.go:bufferedBody.Read"]}
{"id": "C61", "title": "The Adaptor counts a panic for every truncated response", "statement": "Let the Adaptor serve a request with any inner Handler that returns a Response with a body, on an honest client (C60) that may fail at any time, whose WriteHeader(500) does not panic. The client gets a beginning of what the body has left. Exactly one request is counted, and if the response has a body to send (not HEAD, not 204) and the client did not get all of it, exactly one panic is counted and OnPanic is called once.", "quantifier": "every reachable state, every inner Handler, every honest client and every point at which it fails", "why_tests_cant": "The Handler is an arbitrary program and the client an arbitrary honest one; tests try single failures.", "anchors": ["handler/adaptor.go:Adaptor.ServeHTTP", "response/response.go:Response.Serve", "response/writer.go:basicWriter.Write", "response/writer.go:fancyWriter.ReadFrom"]}
{"id": "C62", "title": "A Response is a template for any number of requests", "statement": "Let a Response have a body that is open: bytes in memory, or a Body made of a Reader of one of the kinds of C24 and not yet read. Let a program answer any number of requests with copies of it (resp.Copy, then Serve in the Adaptor), on any clients and whatever comes of them, and use the copies, their bodies, further copies of the body, other Bodies and Writers in any way. Then the next request on a client that accepts everything gets the status of the Response, the header it had at first (but for Push) and all the bytes (none for HEAD and 204), and is counted with them.", "quantifier": "every reachable state, every such program in between (any length, any failures of other clients), every client, every contents", "why_tests_cant": "The number of requests, the ways in which earlier ones fail half-way and the interleaving of the copies' reads and closes are unbounded; tests serve a response once or twice.", "anchors": ["response/response.go:Response.Copy", "response/response.go:Response.Serve", "handler/adaptor.go:Adaptor.ServeHTTP", "body/buffered.go:bufferedBody.Copy", "body/readerat.go:readerAtBody.Copy", "body/seeker.go:seekerBody.Copy", "body/bytes.go:bytesBody.Copy"]}
{"id": "C63", "title": "Builders and Responses are values", "statement": "Let a program leave the headers of its Builders and Responses to their methods (no edits by way of Headers()), not write into the slices of values in its clients' headers, and use the default page generator; otherwise it may do anything, requests, Serve and copies included. Then every Builder and every Response has a value: a status, a header (as a map from names to lists), a body and an error. The value of a Response never changes. The value of a Builder changes only by calls of its own methods, each of which is a fixed function of the value and its arguments (calls that raise leave it alone), wherever they are made, also in Handlers. Build makes a Response of the value with the defaults filled in and leaves the Builder as new, and a copy has the same value with a copy of the body. So what a Response is, at any later time, is a function of the calls between NewBuilder() and Build() alone, although the maps and slices behind them are shared.", "quantifier": "every state such a program can reach, every such program from there on (any length, any Handlers, any behaviour of Readers and clients), every Builder and Response", "why_tests_cant": "Aliasing of maps and slices shows only in particular interleavings of copies, appends, Build, Serve and requests; the interleavings are unbounded, and a test sees only the aliasing it was written for.", "anchors": ["response/builder.go:Builder.Copy", "response/builder.go:Builder.Build", "response/builder.go:Builder.WithHeader", "response/builder.go:Builder.WithHeaders", "response/builder.go:Builder.ErrorPage", "response/builder.go:Builder.RedirectPage", "response/response.go:Response.Copy", "response/response.go:Response.Serve", "response/util.go:copyHeaders", "handler/adaptor.go:Adaptor.ServeHTTP"]}
{"id": "C64", "title": "What a client gets is a function of the calls to the Builder", "statement": "Let a program (as in C63, within Go's size limits) make a Builder, call its header helpers, WithStatus, WithBody and WithError in any order with anything else in between, Build a Response with a body of bytes in memory, and then do anything else, requests included, that leaves this body as it was. If a request is then answered with a copy of the Response, on a client that accepts everything, the client gets the status, the header (but for Push, over what it already had) and the bytes that are computed from the list of calls and the contents of the body alone; Content-Length is the number of bytes unless it was set by hand; and the request is counted with this status and these bytes. The same holds for a Builder of any value and for a body of any kind that C62 shows to be a template. The same holds for a request whose Handler makes a non-empty body of bytes, calls a new Builder any number of times with arguments that do not raise, and returns what it builds.", "quantifier": "every such program before, between and after the calls (any length, any Handlers and clients), every list of calls, every contents, every client that accepts everything", "why_tests_cant": "The claim spans New, any number of calls, Build, an arbitrary program, Copy, Serve and the Adaptor; tests look at one link of this chain with one input at a time.", "anchors": ["response/builder.go:NewBuilder", "response/builder.go:Builder.Build", "response/builder.go:Builder.WithHeader", "response/response.go:Response.Copy", "response/response.go:Response.Serve", "handler/adaptor.go:Adaptor.ServeHTTP", "body/bytes.go:bytesBody.WriteTo"]}
{"id": "C65", "title": "A Reader that is answered with is closed once", "statement": "Let a program that uses Bodies, Builders, Responses, Writers, Adaptors and Handlers (within Go's size limits, with Readers that do not panic) make a Body of a Reader, once. At every point, if some Body still gives the Reader out by Unwrap then it has not been closed; if none does then it has been closed exactly once, if it has that method, and not used afterwards. If a Response whose Body is all that is open of the Reader is served, and Serve returns, with an error or without, but not because of a push, then afterwards nothing but Bodies made during Serve (by a client's ReadFrom) is open of the Reader; if there are none then the Reader has been closed exactly once. The same holds after a request whose Handler returns such a Response, be the Body made before the request or by the Handler, and whatever the Adaptor does after Serve; in particular if the Adaptor counts no panic.", "quantifier": "every such program (any length, any Handlers and clients), every Reader that does not panic, every client, every outcome of the Writes", "why_tests_cant": "It is a statement about all programs that end in a request; a leak or a second Close shows up only for particular mixes of copies, failing clients and errors, of which tests try a few.", "anchors": ["response/response.go:Response.Serve", "handler/adaptor.go:Adaptor.ServeHTTP", "body/seeker.go:seekerCommon.unref", "body/readerat.go:readerAtCommon.unref", "body/buffered.go:bufferedCommon.unref", "response/response.go:Response.Copy"]}
{"id": "C66", "title": "The Adaptor's books balance", "statement": "Let a program serve any number of requests of plain clients (not wrapped by NewWriter before) with an Adaptor, by Handlers that build and return Responses or panic, but do not write to clients themselves; clients do not panic when sent the status 500, and their ReadFrom does not itself send its source to another Writer. After any such run, the statuses sent are one per request, to the clients of the requests in order; the requests counted are these, in the same order, each labelled with the status that was sent, or with 0 if the Adaptor sent the 500 itself (C41); the sum of the bytes counted is the number of bytes that all clients have accepted, if that fits an int64; and the panics counted are as many as the calls of OnPanic, and not more than the requests. One request of a plain client, after any program at all, adds one status, one counted request, the bytes that were accepted meanwhile (modulo 2^64) and at most one panic.", "quantifier": "every such program (any length, any Handlers, Readers, clients and failures)", "why_tests_cant": "The counters are summed over a whole run; a byte counted twice or a request not counted needs a particular mix of failing clients, panics and reused Responses.", "anchors": ["handler/adaptor.go:Adaptor.ServeHTTP", "response/writer.go:NewWriter", "response/writer.go:basicWriter.Write", "response/response.go:Response.Serve"]}
{"id": "C67", "title": "A request is one conversation with its own client", "statement": "Let a program serve any number of requests of plain clients (not wrapped by NewWriter before) with an Adaptor, by Handlers that build and return Responses or panic, but do not write to clients themselves; the ReadFrom of a client does not itself send its source to another Writer. The calls that the clients get in such a run are one conversation for each request, in the order of the requests and without anything in between: any number of pushes, then one status between 100 and 999, then no further status, and no data at all if the request is HEAD or the status is 204; and every call of a conversation goes to the client of the request. The same holds of one request of a plain client after any program at all. Panics of Handlers, Readers and clients and errors of Serve are included.", "quantifier": "every such program (any length, any Handlers, Readers, clients and failures)", "why_tests_cant": "It rules out every call that should not be there, such as a second status after a failed body or data for another client, over all runs; tests check the calls of a few runs.", "anchors": ["handler/adaptor.go:Adaptor.ServeHTTP", "response/writer.go:basicWriter.WriteHeader", "response/writer.go:basicWriter.Write", "response/writer.go:fancyWriter.ReadFrom", "response/response.go:Response.Serve"]}
{"id": "C68", "title": "An answer without a body still reads its Body to the end", "statement": "If a Response whose Body reads from a Reader is served on a Writer that sends no body (a HEAD request or the status 204), Serve returns nil only if the Body was read until it reported io.EOF and no other error, and then closed without an error. Between the start of Serve and these Reads only clients are called. ReadFrom of such a Writer, once the status is sent, calls nothing but Read with non-empty buffers until an error is reported, and returns the number of bytes and this error, or nil for io.EOF.", "quantifier": "every state, Body over a Reader, Writer of any kind, and every Reader and client", "why_tests_cant": "Nobody sees the bytes of such an answer, so tests look at the status only; an error lost while discarding goes unnoticed.", "anchors": ["response/writer.go:fancyWriter.ReadFrom", "response/writer.go:basicWriter.Write", "response/response.go:Response.Serve"]}
