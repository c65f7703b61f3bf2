# Formal model of chronos-tachyon/morehttp in Rocq (Coq 8.16.1)

* `properties.jsonl` — the properties, C01 to C68 and on.
* `MANIFEST.json` — for each property the theorems and whether they cover it.
* `rocq/theories/Cnn.v` — the theorems of property Cnn, nothing else: statement,
  `exact`, `Print Assumptions`, and `Example`s showing that the hypotheses hold
  of concrete, non-trivial states.
* `seeded/LOG.jsonl` — wrong programs tried against the theorems.

## 1. Trusted base

1. Coq's kernel (8.16.1); the development is also accepted by `coqchk`.
2. Axioms: none.  `Print Assumptions` says "Closed under the global context" for
   every theorem.  `coqchk -o` lists `Coq.ssr.ssrunder.Under_rel.*`, which come
   from the ssreflect files of the standard distribution that std++ loads; no
   theorem depends on them.
3. The library std++ (lists, finite maps); all of it is checked, none is axiomatic.
4. That the model says what the Go code does.  Sections 2 to 4 say how the
   model is built and what it leaves out.
5. That the theorems say what the properties say.  Their statements mention the
   model and the vocabulary files (`*Spec.v`) only, never a lemma or an invariant
   of the proofs.

## 2. The model

Every definition cites the file and lines it models.

| file | what |
|------|------|
| `GoBase.v` | int64/int32 arithmetic, errors, panics, slices of bytes |
| `Lang.v` | the language of the Body methods: atomic actions, locks, `defer`, calls into the outside; sequential execution `run` |
| `BodyModel.v` | package body: all constructors but the encoders, the six implementations, all methods |
| `Text.v` | library functions: Itoa, CanonicalHeaderKey, EscapeString, TrimSpace, errors.Is, base64 |
| `RespModel.v` | encoders of package body; package response: Builder, Response, PageGenerators, Writers; io.Copy; package handler: Adaptor |
| `PanicModel.v` | the same programs of package body with Readers that panic; package response runs them this way |
| `NestModel.v` | a Body used as the Reader of another Body |
| `Conc.v` | goroutines: any interleaving of the same programs, with blocking mutexes |
| `MockModel.v` | internal/mockreader |

* `int` and `int64` are `Z`; every addition that can leave the range is followed
  by `wrap64` (`wrap32` for the reference counts).  A byte slice is a list;
  slicing is bounds-checked and panics.  Slices of strings in header maps are
  windows on arrays with a capacity, so that sharing and `append` in place are
  represented.
* Errors are values and `nil` is a separate case.  A call returns, panics, or is
  still looping after `fuel` rounds (`Spin`).  No theorem treats the third like
  the first; C47 says when it cannot happen and that fuel does not matter.
* The outside world — Readers, Writers, ResponseWriters, PageGenerators, OnPanic —
  is an arbitrary state machine over an arbitrary state: `env W`, `uenv V`.
  Theorems quantify over all of them.  A contract (a Reader that keeps to the
  rules of io.Reader, a source that is a fixed byte string) is a hypothesis of
  the theorem that needs it.  Calls outside are recorded in a log, so that
  "closed exactly once" is a statement about the log.
* Bodies are objects in a heap, and copies share their `common` object as in Go.
  A program is an arbitrary list of commands on arbitrary handles (`history`,
  `thistory`), a handler an arbitrary tree of them.
* Ideal behaviour is specified by tiny machines that know nothing of the
  implementation: independent cursors over a byte string (`Spec.v`,
  `StreamSpec.v`, `SourceSpec.v`).

### Simplifications inside the modelled code

* An external call terminates and does not panic, except Write, WriteHeader,
  Push, Flush, ReadFrom, PageGenerators and OnPanic, which can panic.  Readers
  may panic in C54 and throughout package response and the Adaptor (`u_hazard`);
  theorems about `runs_to` and `wrapped_in` (what Serve delivers) assume they do
  not (`go_uenv`).  What such a call has put into the caller's
  buffer is not modelled.
* A callee can change the contents of the buffer it is given during the call
  only, and does not keep it.
* FromBytes keeps the caller's slice; that the caller leaves it alone afterwards
  is assumed.
* The map `bodies` of bufferedCommon is a list without duplicates.  C16 shows that
  the order of iteration does not matter.  The loops over header maps visit distinct
  keys and write distinct keys.
* FromReader and FromReaderAndLength take an external Reader or one Body
  (FromReader of a Body returns it).  A Body given to FromReaderAndLength, i.e. a
  Body of a Body, is modelled in `NestModel.v` only: the lower Body has a heap of its
  own, which is the outside world of the upper one, and the program uses the lower
  Body through the upper one only.  C55 is about lower Bodies that can seek, C56
  about streaming ones.  A lower Body gets at most 2^61 bytes of buffer at a time
  (`clip`): no Go slice is longer, and the lower heap's own bounds need it.  C56
  asks that the lower fuel exceed the length of the stream, that fewer than 2^62
  bytes are read in all, and that the declared length leaves no doubt which error
  ends the stream (it does when the Reader stops exactly at the declared length
  with an error other than io.EOF: C04 allows either there).
* encoding/json, protobuf and package mime are parameters: the bytes or the error
  they produce.  http.StatusText is a parameter.
* Of the types implementing response.Writer only those of this package are
  modelled, and one ResponseWriter has one header map.
* The source given to ReadFrom by a client is a Body.
* CloseNotify and Hijack only show in the type of the Writer (C32).
* The deferred function of the Adaptor: durations are left out, the number of
  bytes received is 0 (as in the code); a handler does not itself call ServeHTTP.
* io.Copy, io.Discard and the interfaces of io, net/http, fs are those of Go 1.17,
  the version in go.mod.
* Concurrency: sequentially consistent memory; an action loads or stores a whole
  object; a call into a Reader or Writer is one action; an allocation happens
  together with the next action of its goroutine, because nobody else knows the
  new object before that.  C45 and C51 say which accesses race; where they do not,
  sequential consistency is what the Go memory model promises.  Only package body
  is modelled concurrently.

### Not modelled

* Formatting: String, GoString and Error of all types; debug output.
* `init`, the registration of Prometheus collectors, the counters themselves: what
  they are told is recorded in `s_met`.
* `handler.HandlerFunc`, `response.Response.String`, `Response.Err`: getters and
  adapters without logic.
* The wrappers of internal/mockreader (`Wrapper000` to `Wrapper111`): each method
  is a delegation to MockReader.  Its mutex.
* net/http itself.

## 3. How the properties are proved

| id | method |
|----|--------|
| C01 | refinement to cursors, induction over histories (`Mem.v`) |
| C02, C03 | refinement to cursors over an honest source (`Source.v`) |
| C04, C13–C15 | the shared buffer is a window on the stream (`Stream.v`) |
| C05–C07, C17 | heap invariant `wf` (`Wf.v`, `Preserve.v`), ownership of Readers (`Own.v`) |
| C08 | twin executions with and without the copy (`Copies.v`) |
| C09, C19–C21 | decision rules, simulation (`SeekProofs.v`) |
| C10–C12, C46, C48 | per-call facts for any Reader (`Sticky.v`, `Any.v`, `Limits.v`); exactness from the traces (`Remaining.v`) |
| C16 | the trim loop computes a minimum (`Order.v`) |
| C18 | decision table |
| C22, C23, C38, C39, C49 | lists and strings (`JsonProofs.v`, `BuilderMain.v`) |
| C24, C30, C37 | what Serve delivers: induction on the copy loops over any refinement to a byte string (`Deliver*.v`, `Twins.v`) |
| C25–C27 | a program logic for response programs (`ServeProofs.v`); calls that returned met no panicking Reader (`Hazard.v`); errors.Is is reachability along the wrapped errors (`IsMain.v`) |
| C28–C32 | invariants relating each Writer to the log (`WriterProofs.v`) |
| C33–C36 | invariants over header maps, slices and arrays (`CodeProofs.v`, `RegionProofs.v`, `TidyProofs.v`) |
| C40, C41 | case analysis over how the handler ends (`AdaptorMain.v`, `Metrics.v`) |
| C53 | C24, C26, C29 and C41 composed; for bytes in memory a symbolic run of the whole request (`Reply.v`) |
| C42 | simulation: each call takes effect when it gives back common.mu, or body.mu if nothing is shared (`Lin.v`) |
| C52 | C42 and C08 composed (`Solo.v`) |
| C43–C45, C51 | a type system for locking (`Typed.v`), an invariant of all interleavings (`ConcInv.v`, `ConcFresh.v`) |
| C47 | measure; fuel monotonicity (`Fuel.v`) |
| C50 | induction over scripts |
| C54 | where a run can be cut off; a stream's Read cut off is a Read with less fuel (`Panics.v`), so that the invariants of C02–C04 carry over (`PanicProofs.v`) |
| C55 | the lower Body satisfies, in any heap the upper layer can reach, what C02 asks of a Reader (`NestProofs.v`); an invariant ties the two heaps (`NestMain.v`) |
| C56 | the lower Body is a Reader that streams what it has left, for as long as it is open (`NestStream.v`): C04's trace of one Read, over an invariant of the lower heap |
| C57 | the invariant of C02 with a length that can only fall (`Short.v`), for any rule `A` about one read of the Reader; once the length is the true one, the trace is that of C02 |
| C58 | BytesRemaining at Build (C34) against the bytes delivered (C24): `LengthMain.v` adds to the invariant of C02 that a handle that has ended is at the end |
| C59 | an invariant says what a Body has left and holds whatever the outcome of a Read (`tape` in `Safe.v`); io.Copy, ReadFrom of a Writer and WriteTo keep it (`Safe.v`); every kind of source has one (`SafeFault.v`) |
| C60 | as C59, with what the client got as a ghost function of the outside world instead of the log; the loop of ReadFrom is followed step by step (`Honest.v`) |
| C61 | the `request` of C40 and the Serve in it, with C60; the deferred function gives the client nothing (`Count.v`) |
| C62 | induction over the program in between: no step but a header edit changes the template's header or its slices, and none changes the record of its body (`Template.v`); then C53 with the `twins` of C37; the hypotheses of the `_whole` theorems of C37 carry over the program |
| C63 | invariant `good` (`PlainProofs.v`: the maps of Builders and Responses are none of those handed to the program, a Builder shares its map with no one, and a map of no client and no Response shares no array; `swf`); each command changes at most its own Builder's value and no Response's (`ValueMain.v`); Serve moves slices into clients' maps only; then induction over Handlers and programs, with the method lemmas of C34 to C36 on `swf` states |
| C64 | C63 up to the request, C62 with an empty program from there on (`ClientMain.v`) |
| C65 | C06's ownership invariant for programs with Handlers, and C25 for Serve (`CloseMain.v`) |
| C66 | the invariant of the Writers (`WriterProofs.v`), summed over a program: what a request adds to the log of the clients belongs to its own Writer (`BooksMain.v`) |
| C67 | the same, for the shape of what a Writer sends (`TalkMain.v`) |
| C68 | induction on the loops of io.Copy, to a Writer that discards and to io.Discard (`DrainMain.v`); found missing when a wrong `discard_loop` passed all other theorems |

## 4. What was found in the code

False as stated, with a witness (`…_refuted`):

* C03: a Seeker source that delivers less than asked for (which io.Reader allows):
  a Read reports EOF although only part was delivered, and the common length is
  lowered for every copy.
* C08: a passing fault met by the Read of one handle lowers the length for the
  other copies; BytesRemaining of a stream changes from -1 when another copy meets
  the end.  C46: BytesRemaining can so become negative.
* C09: Seek overflows int64.
* C19, C21: Empty().WriteTo returns io.EOF; Empty and an empty byte Body differ on
  ReadAt at a negative offset.  Serving Empty() therefore ends with io.EOF.
* C20: after a short write by WriteTo, a byte Body has bytes remaining, yet Read
  reports EOF.
* C59: WriteTo of a byte Body, and so Serve, believes a Write that takes too few bytes
  without an error: bytes are lost and nil is returned.
* C62: changing in place the header values of a client that has been answered changes
  the Response that was served, and so what later clients get.
* C22: FromJSON serves no bytes at all: it copies into a slice of length 0.
* C25: after a failed push, or when the Writer or the Reader panics, the Body is
  not closed.
* C31: an error of the ReadFrom underneath is not seen by SawError.
* C34: WithHeaders keeps the spelling of its keys, so that Build can add a second
  Content-Type.
* C41: metrics are labelled with status 0 when the client sees the 500 sent by
  the deferred function.
* C45: seekerBody.BytesRemaining reads the shared length without the lock of the
  shared object.
* C54: if the Reader of a buffered Body panics in Close, the Body is left looking
  open but taken apart: Read and Copy panic, and a second Close returns nil.
* C48: the int32 reference counts wrap at 2^31 copies.

Also noticed, and stated where it matters:

* A Read of a buffered Body spins on a Reader that returns (0, nil) for ever (C47).
* RedirectPage and ErrorPage drop an earlier Body without closing it.
* Response.Copy shares the header map (C37), and Serve puts the slices of the
  Response into the map of the Writer (C26).
* A status is recorded before it is passed on, so that a panicking WriteHeader
  counts as sent (C28).
* 304 responses are not suppressed by Writers; net/http does that.
* An Adaptor that is given a Writer counts what it has sent before once more (C66).
* panic(nil) in a handler goes unnoticed (Go 1.17).
* A Reader given to two constructors can be used concurrently (C44_misuse).
* A mismatch on a MockReader still consumes its line (C50).

## 5. Scope of the partial claims

* C42 is about the copies of one Body.  With unrelated Bodies in one arbitrary world
  it would be false: the world could tell the order of two calls apart in the
  middle of a call.
* The other claims marked partial in the manifest are properties that are false of
  the code; the theorems say for which part of the programs they hold.
