# A Rocq model of pynmeagps

Everything below /verif/rocq/theories is Coq 8.16.1.  The code in /repo is read as text only; it is never run.

## 1. What is modelled, and how

| File | Models | Notes |
|---|---|---|
| `PyBase.v` | Python `str`/`bytes` operations used by the code | text = list of code points (`N`), bytes = list of `N` < 256; exceptions are values (`result`) |
| `UniTables.v` (generated by `tools/gen_unicode.py`) | `str.upper`, `isdigit`, `isnumeric`, `isspace`, decimal digit value | the tables of CPython 3.11 (Unicode 14.0) |
| `PyText.v` | `bytes.decode("utf-8")`, `str.encode("utf-8")` | strict, surrogates rejected |
| `PyNum.v` | `int(str)`, `int(bytes,16)`, `str(int)`, `f"{n:02X}"`, `f"{n:02d}"`, `f"{n:x}"` | incl. white space, signs, underscores, Unicode digits and the 4300 digit limit |
| `PyFloat.v` | `float(str)`, `str(float)`, `round`, `divmod`, `:.5f`, `int(float)`, arithmetic | binary64 on `SpecFloat` (stdlib), correctly rounded |
| `PyTime.v` | the parts of `datetime`/`strptime`/`strftime` the code uses | proleptic Gregorian calendar |
| `Tables.v` (generated by `tools/gen_tables.py` from the text of nmeatypes_*.py with `ast`) | all definition dictionaries, id and talker tables | each entry cites file:line |
| `Decodes.v` (generated by `tools/gen_decodes.py`) | nmeatypes_decodes.py | |
| `Helpers.v` | nmeahelpers.py | |
| `Message.v` | nmeamessage.py | |
| `Items.v` | nmeamessage.py, the constructor, serialize() and str() for a payload= list of values | items are str, int, float, bool, None, date, time or naive datetime |
| `Reader.v` | nmeareader.py | polymorphic in the stream object |
| `ReaderHandler.v` | nmeareader.py read, _do_error | the same loop with an error handler that has a memory |
| `ReaderAny.v` | nmeareader.py read | the same loop over streams that return str, bytearray or None |
| `Objects.v` | nmeamessage.py `_payload`, `payload`, `__setattr__`; object copying | message objects that refer to list objects, and histories of operations on them |
| `Threads.v` | nmeareader.py read | the loop of read() as a machine with one stream call per step, run under a schedule of threads |
| `Poller.v` | examples/nmeapoller.py io_data, process_data, main; examples/quecteldemo.py io_data, process_data | threads as step machines; Queue and Event as atomic; printing and sleeping of the main program left out |
| `Demos.v` | `examples/nmeapoller.py`, `examples/quecteldemo.py`: main, send | straight-line statement lists interleaved with Poller.v and Ctrl-C; sleep and constant prints have no effect |
| `Datums.v` | `examples/datums.py` (whole table), `examples/utilities.py:74-106` (conversion to a datum and back). The semi-axes of 118 of the 124 entries (all whose axis differs from that of WGS84) appear to lie on the wrong side of WGS84's (6377886 for the International ellipsoid, 6378137 - 251, whose published value is 6378388 = 6378137 + 251); no theorem depends on the published values. |
| `Tracker.v` | `examples/gpxtracker.py` (reader, write_gpx_hdr, write_gpx_trkpnt with the tags in use, write_gpx_tlr); not: file names, terminal output, command line |
| `Server.v` | `examples/webserver/nmeaserver.py` (reader thread, set_data, get_data); `json.dumps` for a dictionary of strings and numbers; each assignment and each dumps is one atomic step; not: serial port, HTTP server, start and stop |
| `Http.v` | `examples/webserver/gpshttpserver.py` do_GET | directory = function from names to bytes, UTF-8 locale; `guess_type` is a parameter; status line and content type are one step; other headers, the TCP server and the request parser are not modelled |
| `NmeaFile.v` | `examples/nmeafile.py` (whole program, with its command line) | files = function from names to contents; output = list of printed texts |
| `ErrorText.v` | the functions of nmeahelpers.get_parts, nmeamessage.py and nmeareader.py that raise, with the texts of the errors |
| `ReaderReentrant.v` | nmeareader.py read, \_do\_error with a handler that itself reads |
| `GeoDefaults.v` | the signatures of area, haversine, planar, llh2ecef, ecef2llh: an argument left out is the WGS84 value | |
| `SocketInt.v` | socketwrapper.py, over a socket whose recv() may raise an exception that is not caught | as for Socket.v; a recv() that raises has taken nothing from the network |
| `NmeaSocket.v` | examples/nmeasocket.py | the host is a function from address and port to the answers of recv(); the figures of the last line are rationals, not texts; Ctrl-C comes in connect() or recv() only |
| `BufferedPort.v` | the stream of examples/webserver/nmeaserver.py (`BufferedReader(Serial)`) and its `in_waiting` test | io.BufferedReader by the results of its raw reads; io.BufferedReader and pyserial are not pynmeagps code |
| `Benchmark.v` | examples/benchmark.py | figures as rationals; integer quotients for the true divisions of the progress bar (exact below 4.5e14 cycles) |
| `Socket.v` | socketwrapper.py | recv results are an arbitrary list of data/error events; `zlib.decompress` is a parameter of the model |
| `Repr.v`, `UniPrint.v` (generated) | `NMEAMessage.__repr__`, Python's `repr` of `str` and `list`, `str.isprintable` | |
| `Geo.v` | area, bearing, haversine, planar, llh2ecef, ecef2llh | **idealised**: real numbers instead of floats |
| `FGeo.v` | the same functions operation by operation in IEEE binary64 | the C library's sin, cos, asin, acos, atan2, pow are a parameter |

Specifications (read these together with the theorem statements; they use the model's data types - texts, values, messages,
definitions, the generated tables - but none of its functions that do the work):

| File | Specifies |
|---|---|
| `Spec.v` | numerals, checksum, frames, headers, layout of a definition over a payload, selection of the definition, sentences |
| `ReaderSpec.v`, `SocketSpec.v` | scanning of a byte stream, error policy, what a socket delivers, chunked encoding |
| `ReprSpec.v` | reading a constructor call: string literals, list displays |
| `KeywordSpec.v`, `ValueSpec.v` | slots of a definition for construction, nominal values, what a field text stands for, how a value is written |
| `TimeSpec.v`, `GnssSpec.v`, `CoordSpec.v`, `GeoSpec.v`, `FGeoSpec.v` | clock times and dates as digits, the TAI-UTC table and GNSS epochs, degree/minute notation, vectors on sphere and ellipsoid, the accuracy of the C library |

Lemmas: `BaseLemmas`, `TextLemmas`, `NumLemmas`, `ParseProofs`, `MessageProofs`, `SelectProofs`, `DecodeProofs`, `TableProofs`,
`StreamProofs`, `ReaderProofs`, `SocketProofs`, `ChunkProofs`, `KeywordProofs`, `CompleteProofs`, `GenerateProofs`, `TimeProofs`,
`FloatProofs` (SpecFloat = Flocq's binary64), `DecimalProofs`, `CoordProofs`, `DmsProofs`, `GnssProofs`, `GeoProofs`, `EcefProofs`,
`EcefAccuracy`; binary64 error analysis: `PiBounds`, `FloatErr`, `FGeoProofs*`, `LibmExact` (a correctly rounding library exists).

Property theorems, named after the property (`C07_...`), with examples (`C07_example`, or an `Example`) showing concrete,
non-trivial cases that meet the hypotheses:

| File | Properties |
|---|---|
| `PropsParse.v` | C01 C02 C03 C05 C06 C19 C58 C70 |
| `PropsMessage.v` | C04 C07 C08 C09 |
| `PropsDecode.v`, `PropsTruncate.v` | C12 C13 C14 C15 C17 C18 C20 C21 C22 |
| `PropsObject.v`, `PropsRepr.v` | C23 C24 C25 C57 C70 (clock); C57 (text) |
| `PropsReader.v`, `PropsSocket.v` | C19 (reader) C26-C33; C34-C39 |
| `PropsConstruct.v`, `PropsKeyword.v`, `PropsGenerate.v` | C10 C13 C21 C22 C68; C53 C67 C68; C11 C16 |
| `PropsValue.v`, `PropsWrite.v` | C71; C72, C11 for typed values |
| `PropsTime.v`, `PropsGnss.v` | C40-C42; C43-C46 |
| `PropsHelpers.v`, `PropsSpeed.v`, `PropsTables.v` | C50 C52 C56 C59 C60 C61; C61; C54 C55 |
| `PropsCoord.v`, `PropsDms.v`, `PropsDms2.v` | C47 C48 C49 C51; C66 C69 |
| `PropsChunked.v` | C73 C74 |
| `PropsPipeline.v` | C75 |
| `PropsSession.v` | C76 |
| `PropsFault.v` | C77 |
| `PropsFGeo.v`, `PropsFGeo2.v`, `PropsFGeo3.v`, `PropsFGeo4.v` | C78; C79; C80; C81 |
| `HandlerProofs.v`, `PropsHandler.v` | C82 |
| `PropsRoundTrip.v` | C83 |
| `PropsWeek.v` | C84 |
| `PropsWaiting.v` | C85 |
| `Decodes.v`, `PropsCodes.v` | C86 |
| `PropsPrompt.v` | C87 |
| `PropsPort.v` | C88 |
| `ReaderAny.v`, `PropsAny.v` | C89 |
| `PropsConcat.v` | C90 |
| `PropsRelax.v` | C91 |
| `Objects.v`, `PropsObjects.v` | C92 |
| `Threads.v`, `PropsThreads.v` | C93 |
| `PropsDamage.v` | C94 |
| `PropsArgs.v` | C95 |
| `PropsChecks.v` | C96 |
| `PropsExc.v` | C97 |
| `DecimalShort.v`, `RewriteSpec.v`, `RewriteProofs.v`, `PropsRewrite.v`, `PropsRewriteIds.v` | C98 |
| `Poller.v`, `PropsPoller.v` | C99 |
| `Datums.v`, `PropsDatums.v` | C100 |
| `Tracker.v`, `XmlSpec.v`, `XmlProofs.v`, `SlotProofs.v`, `PropsTracker.v` | C101 |
| `Server.v`, `JsonSpec.v`, `JsonProofs.v`, `PropsServer.v` | C102 |
| `PropsDmsText.v` | C103 |
| `PropsItems.v`, `PropsItems2.v` | C104 |
| `PropsTimeText.v` | C105 |
| `PropsNumText.v` | C106 |
| `PropsDemos.v` | C107 |
| `PropsHttp.v` | C108 |
| `PropsShown.v` | C109 |
| `PropsFile.v` | C110 |
| `PropsErrorText.v`, `PropsErrorText2.v`, `PropsErrorText3.v` | C111 |
| `PropsMemory.v` | C112 |
| `ReaderReentrant.v` (model), `PropsReentrant.v` | C113 |
| `PropsSettings.v` | C114 |
| `PropsDefaults.v` | C115, C79_overflow, C80_overflow |
| `SocketInt.v` (model), `PropsInterrupt.v` | C116 |
| `NmeaSocket.v` (model), `PropsSockProg.v` | C117 |
| `BufferedPort.v` (model), `PropsBuffered.v` | C118 |
| `Benchmark.v` (model), `PropsBench.v` | C119 |
| `PropsGeo.v`, `PropsEcef.v`, `PropsEcef2.v` | C62-C64; C65; C65 inverse |

Tests of the translation (not proofs, no property depends on them): `ConformanceDocs.v` (the outputs documented in README.md and
examples/pynmeagps_usage.py; the one of README.md:221 is outdated: ACN is defined by now), `Conformance.v` and `ConformanceGeo.v`, generated by
`tools/gen_conformance.py` and `tools/gen_conformance_geo.py` from the text of /repo/tests, evaluate 383 expectations of the
project's own unit tests in the model: all stream logs with the printed messages, parse, constructors with their bytes, the
dummy socket (plain and chunked), the helpers, and the numeric helpers of `FGeo.v` with a computable library. All hold.
`ConformanceErrors.v` does the same for the tests' expectations about error texts. Left out: the decode tables, the `datastream` getter,
defaults read from the clock, and the four error texts that `ErrorText.v` does not model.

Conventions: a `…_refuted` theorem proves the negation of (an instance of) the full property by a concrete witness;
beside it is the strongest guarded positive theorem we could prove.  `…_partial` marks theorems that
prove only part of a property.

## 2. Not modelled

* Texts of exceptions: only the exception class in the main model; `ErrorText.v` adds the texts of the errors pynmeagps raises itself (C111), not those of
  Python's own exceptions. Logging itself is not modelled (only what is logged).
* Memory exhaustion, recursion limits; the wall clock beyond the values it gives (C70, C101, C117), signals beyond an interrupted `recv` (C116) and Ctrl-C of the
  examples (C107, C117), threads beyond two sharing a reader or the queues of nmeapoller.py and quecteldemo.py (C93, C99, C102).
* The socket and file objects themselves: a file is its remaining bytes, a socket a list of `recv` outcomes; a `recv`
  never returns more than it is allowed to (the OS contract), which the model does not need.
* The error handler is any function of the error that returns or raises (Reader.v), or of the error and a memory of its
  own (ReaderHandler.v, C82), or any terminating program that also calls read() of the reader or of the stream (ReaderReentrant.v, C113; recursion limit not modelled). StopIteration raised by a handler or a stream is not distinguished
  from other exceptions. Stream objects are arbitrary (any state, methods may raise) but return `bytes`.
* `Py_ssize_t` has 64 bits (`BytesIO.read` of a larger number raises OverflowError); other platforms have a lower limit.
* The property `NMEAReader.datastream` returns the stream object of the model (the file, or the socket wrapper); it has no definition of its own.
* Values passed as keywords: `str`, `int`, `bool`, `float`, `None`, `date`, `time`, naive `datetime`. `payload=` is a list of `str` (a list of such values in `Items.v`, C104).
* User definitions whose attribute names overwrite private names or methods of NMEAMessage (`_payload`, `str2val`, ...).
* The C library behind `math.sin`, `cos`, `asin`, `acos`, `atan2` and `**`: C78-C81 hold for every library that is accurate to less
  than one unit in the last place and follows annex F of the C standard in exact cases (`libm_ok` in `FGeoSpec.v`, a hypothesis of
  these theorems; `exact_libm_ok` in `LibmExact.v` shows that a correctly rounding library meets it). C62-C65 are about the same
  functions over the reals, without rounding.

## 3. Plan per property

* **C01 Checksum value** — induction on the string over the model of calc_checksum; hexadecimal digits by induction.
* **C02 A single corrupted character is always detected** — XOR algebra: replacing c by d changes the XOR by c xor d, and hex printing is injective.
* **C03 Checksum gate** — case analysis of the parse model; spec = existence of a decomposition of the frame.
* **C04 Checksum ignored when validation is off** — case analysis: checksum only flows into the message record.
* **C05 Frame decomposition is lossless** — list induction on split/join and strip.
* **C06 Malformed input never yields a message** — case analysis.
* **C07 Exceptions raised by parse()** — exact characterisation of escaping exceptions; refuted by a witness ('$PUBX*..'), positive under the guard.
* **C08 parse after serialize** — from C05 + UTF-8 round trip.
* **C09 serialize after parse** — from C05; refuted for PSSNSNC.
* **C10 Serialized form** — unfolding + UTF-8; refuted for unknown definitions ('*None').
* **C11 Generated messages are accepted** — C05 + invariant that in keyword mode payload/checksum agree.
* **C12 Field decoding for plain definitions** — induction on the definition list against a zip specification.
* **C13 Repeating groups** — induction on repeats against a flattening specification.
* **C14 Short and long payloads** — prefix lemma on the zip specification; refuted side cases for counts.
* **C15 Sign of lat/lon follows NS/EW** — invariant over attribute setting.
* **C16 NS/EW derived from sign on construction** — invariant over attribute setting; float sign lemmas.
* **C17 Unknown sentences keep every field** — induction on payload.
* **C18 VALMSGID** — case analysis.
* **C19 msgmode validation** — case analysis.
* **C20 User-defined definitions** — case analysis; lower-case user ids refuted.
* **C21 Prefix-style proprietary messages** — case analysis.
* **C22 Quectel command variants** — case analysis + finite table sweep.
* **C23 Immutability** — induction over operation sequences; `del` and the mutable payload list modelled as operations that refute the stronger reading.
* **C24 Identity** — case analysis.
* **C25 str() lists exactly the public attributes** — induction over attributes.
* **C26 Reader returns contiguous slices in order** — induction on fuel/stream, refinement to a scanning specification.
* **C27 Reader delivers every sentence** — induction on the list of sentences.
* **C28 Reader terminates** — fuel sufficiency by the length of the remaining stream.
* **C29 Error policy** — induction; simulation between policies; the error handler is any function from the error to "returns" or an exception.
* **C30 Resynchronisation after an error** — one step lemma.
* **C31 nmeaonly** — refuted ('non-$ bytes are skipped'); exact characterisation of what is reported.
* **C32 Truncated streams** — scanning specification at end of input.
* **C33 Parsed value belongs to its raw value** — case analysis, polymorphic in the stream.
* **C34 Socket read(n)** — induction over recv events.
* **C35 Socket stream integrity** — invariant over call histories.
* **C36 Segmentation invariance** — refinement of the socket stream to a byte list.
* **C37 Socket and file agree** — equivalence if every LF is preceded by CR; refuted otherwise.
* **C38 Chunked decoding** — induction over chunks; refuted for a cut between chunk data and its CRLF.
* **C39 Chunk decoding failures stay contained** — fuel sufficiency + case analysis; decompression is an oracle; the only exception (`OverflowError` of `BytesIO.read`) is traced to a size line of at least 16 hexadecimal digits.
* **C40 Time round trip** — digit arithmetic over all times; strptime regex model.
* **C41 Date round trip** — digit arithmetic.
* **C42 Date/time parsing is total** — case analysis, result validity.
* **C43 Leap seconds** — finite table + monotonicity.
* **C44 Week number and time of week ranges** — integer arithmetic + exactness of float on whole seconds; refuted in the last leap-second seconds of a week.
* **C45 UTC to GNSS week and back** — as C44; refuted at the same places and at millisecond resolution.
* **C46 Automatic rollover** — loop measure.
* **C47 Format of generated coordinates** — Flocq error analysis of the float model; 60.00000 refuted.
* **C48 Coordinate round trip accuracy** — Flocq error analysis.
* **C49 dmm2ddd is total and unsigned** — case analysis; non-negativity refuted.
* **C50 Integer fields round trip** — digit induction.
* **C51 Decimal fields round trip** — 17 digits suffice (Flocq) + correct rounding of the reader.
* **C52 Text fields round trip** — case analysis.
* **C53 Every declared type is supported** — finite sweep; DTL and FOO refuted.
* **C54 Well-formedness of the definition tables** — finite sweep over generated tables, lifted to the statement.
* **C55 Definitions are reachable** — finite sweep with witnesses; refuted for listed definitions.
* **C56 Group size from keywords** — induction on keywords; names with two underscores refuted/raise.
* **C57 repr() reconstructs the message** — refuted (checksum, validate, ...); positive for what repr does carry. The text is modelled with CPython's repr of strings and lists; a reader of string literals and list displays (`ReprSpec.v`) is the specification, shown unambiguous.
* **C58 UTF-8 transparency** — bit-level lemmas by division arithmetic.
* **C59 hex2str** — digit induction.
* **C60 msgdesc** — finite table.
* **C61 Speed conversion** — case analysis; the value in real numbers by the error analysis of FloatErr.v (`PropsSpeed.v`).
* **C62 Spherical area, distance, planar distance** — real analysis.
* **C63 Bearing** — real analysis with an atan2 defined from atan.
* **C64 Geodetic to ECEF** — real algebra/trigonometry.
* **C65 ECEF to geodetic** — real algebra; for the inverse direction the geodetic coordinates of a point exist by the intermediate value theorem and llh2ecef is Lipschitz in them.
* **C66 ISO 6709** — refuted for negative altitude; positive otherwise.
* **C67 Nominal construction** — finite sweep over definitions, universally quantified clock.
* **C68 Keyword values are placed in their field** — induction on definition.
* **C69 Degree/minute/second text** — format theorem + refuted 60.0; rounding analysis.
* **C70 parse() is a pure function** — the model is a function; str/bytes lemma via UTF-8.
* **C71 What a field is read as** — relation `stands_for` (digits and numbers only) against the reading of each type; lifted to the attributes of a parsed message by induction on the definition.
* **C72 How a keyword value is written** — relation `written_as` against the writing of each type; lifted to the payload of a constructed message.
* **C73 Chunked connection** — the refinement of C36/C37 to bytes, generalised to what a socket of any encoding hands out.
* **C74 Connection failure between lines** — simulation between the connection and the one that closes at the failure, frame lemmas for read/readline.
* **C75 What is written is what is read** — composition of C08, C11, C27, C36/C37 through the byte shape of serialize(); for relaying, delivered lines have this shape (UTF-8 keeps LF apart).
* **C76 Reading in several goes** — `iterate` split after k calls of `read` (any stream object, by induction); a `session` loop that calls `read` again after an exception is related to the happenings of the stream by the token specification of C26-C38, for the file and the socket; `C76_new_reader_refuted` for the second reader on a bare socket.
* **C77 Exceptions of the stream and of the error handler** — one pass of the loop over an arbitrary stream object whose methods may raise: every exception is traced to its origin; a stream that fails at a given byte is simulated by the file that ends there.
* **C78 Great-circle distance in floating point** — forward error analysis of the binary64 computation (each operation correctly rounded, each library call within 1 ulp) against the angle between the points; acos and its domain error near ±1 by monotonicity.
* **C79 Bearing, planar distance and area in floating point** — forward error analysis; the bearing by the angle between a direction and its perturbation, the final `% 360` exactly.
* **C80 Geodetic to ECEF in floating point** — forward error analysis relative to the size of the result.
* **C81 ECEF to geodetic in floating point** — forward error analysis of the first guess (both branches) and of the correction step, on top of the real-number analysis of C65 made robust against perturbed inputs and a perturbed guess.
* **C82 Error handlers that remember** — `ReaderHandler.v`: the loop of read() with a handler that has a memory of any type; one pass over the happenings of the stream, then induction; agreement with Reader.v for handlers without memory.
* **C83 Values survive the round trip** — composition of C11 (the generated sentence is accepted and decoded field by field), C16 (signs), C40, C41, C48, C50–C52, C71, C72: per field type a relation between the value given and the value read back.
* **C84 Modular week numbers** — C44 gives week and time of week of t; the candidates of the loop of wnotow2utc are t minus whole periods (plus the difference of leap seconds); induction over the loop.
* **C85 All socket methods together** — one-step lemma per method from the read and readline specifications of C34-C39, then induction over the history.
- **C86** decode tables: `Decodes.v` is generated from nmeatypes_decodes.py; the code fields are located by position (`coded`, `signal_sentences`), decoded by C71_parsed, and the tables checked entry by entry; the flag theorem is bitwise.
- **C87** promptness: `thrifty` relates two states of a plain wrapper and the results of recv() used between them; shown for read, readline and then every history by induction; the reader by induction on its passes. C87_at_once is a simulation: a run that stays in the buffer is the same run whatever is pending.
- **C88** serial ports: the stream object is a list of bytes and timeouts; a run of the application is a sequence of passes of the loop (`runs`, shown deterministic and equal to what `poll` and the session of C76 compute), and a pass over a burst is simulated by a pass over a file.
- **C89** streams that do not return bytes: `ReaderAny.v` repeats the loop over tagged values; agreement with `Reader.v` on bytes, then induction on the loop.
- **C90** streams put together: the `runs` relation of `PropsPort.v` is compositional at line ends (`runs_lines`) and deterministic; induction on the list of files.
- **C91** relaxing validation: the pass over a definition does not read the flags unless a group count names them (`plain`, induction on definitions; computed for the built-in tables), then case analysis of `parse` and induction on the happenings of a stream.
- **C92** objects and shared lists: `Objects.v` gives list objects addresses and lets programs parse, build, copy, edit, assign and delete; invariants of every reachable heap, induction on histories. The in-place edit of the caller's list is modelled for failing constructions as well (`payload_after`), with a proof that it agrees with `Message.v` when construction succeeds.
- **C93** threads: `Threads.v` cuts read() into steps of one stream call each; refinement to `Reader.v` for uninterrupted calls (`read_alone`), induction on locked schedules against `fsession`, and an invariant over arbitrary schedules.
- **C94** damage: sessions of `before ++ x ++ after` and `before ++ y ++ after` by C90; for a file of sentences the place of the damage is extended to line boundaries (each line has exactly one LF), and items are counted by line ends (an item needs one); the flipped byte by C02.
- **C95** argument order: every use of the keyword arguments is a lookup or `groupsize`, both invariant under permutation; with a payload only the reserved names are looked at.
- **C96** the criterion by bits (parity of each bit position over the characters, as in the specification of the checksum); the kinds of damage from it; the burst theorem by locating the two adjacent bytes it touches and decoding them.
- **C97** the exceptions of each conversion, carried through the recursion over the definition (as in C07), for keywords and for payloads.
- **C98** shortest-decimal lemma (a float read from at most 15 significant digits prints as those digits), per-type field lemma, then the layout of the decoder is shown to be a filling of the keyword builder; repeat counts recovered by C56. That the keywords select the decoder's definition is proved for standard, proprietary, prefix-style, several-variant and user-defined ids (`PropsRewriteIds.v`); the conditions on the built-in definitions are computed over the tables.
- **C99** `Poller.v` models the threads of nmeapoller.py and quecteldemo.py as step machines over two queues, an event and a port, with the step machine of C93 for read(); invariants by induction over schedules (conservation of messages, task counts), progress by a cost that each turn lowers, the file case by refinement to `fsession`.
- **C100** `Datums.v` is the table of examples/datums.py (generated from its text) and the conversions of examples/utilities.py; ranges of all entries decided by computation, round trip ECEF to position to ECEF from C81, C80 (its error analysis restated for any angle whose radians are computed accurately) and a Lipschitz bound of the position in latitude, longitude and height.
- **C101** `Tracker.v` models examples/gpxtracker.py (loop, exceptions caught, text written), `XmlSpec.v` says what a well-formed document is. The values that reach the text are floats or "" by C71 (`SlotProofs.v`: attribute by position, present iff the field is), their str() has no markup character; induction over what the reader delivers (C29). Not well-formed without the end: every element has two "<", so a document has an odd number.
- **C102** `Server.v` models the reader thread of examples/webserver/nmeaserver.py as the list of its assignments to the dictionary, so that a page is the fold of some prefix of it; `JsonSpec.v` is the grammar of RFC 8259. Every value is a text, an int that str() can write, or a binary64 number by C71 and the position of its field (`SlotProofs.v`); induction over the results of read() with the invariant that each entry holds what the messages so far gave it.
- **C103** Specification: groups of digits and points with one other character between them. The deterministic matcher of the model is related to it by cases on the number of groups; float() of such a text is the nearest float of the number (`f_of_dec_correct`), errors of quotients and sums as in C69.
- **C104** payload lists of values: `Items.v` is the payload branch of the constructor over values; a simulation argument shows that it is `Message.v` on lists of texts; induction over the definition for the rest.
- **C105** texts of times and dates: every directive of `strptime` is shown to list exactly the texts of its form, longest first; induction over the directives then gives the cut of the whole text by the longest-match rule.
- **C106** texts of numbers: character by character the translation to ASCII is shown to keep digits, blanks and marks; induction over the text for underscores and digit runs; the grammar then follows part by part.
- **C107** Demos.v: the two main programs as statement lists (construct, construct-and-drop, copy, send, stop, idle) interleaved with the threads of Poller.v and with Ctrl-C. A run is mapped to a schedule of Poller.run whose queued messages are a prefix of the program's, then C99_sent/C99_sends apply; the sentences themselves are computed for an arbitrary clock.
- **C108** Model of `do_GET` over a function from names to file contents. Ends of lines are specified by an inductive relation on bytes, shown to commute with UTF-8; the JSON text of C102 is ASCII by cases on the values; confinement by comparing two directories that agree on the four files.
- **C109** Invariant of decoding, by induction on definitions with nested groups: every attribute name is not empty, every value has a text without surrogates, msgId of a prefix-style sentence is a text. The built-in definitions are checked by a boolean function proved sound.
- **C110** Model of the program as a function of the files and the arguments. The command line is specified by the last argument with a name; the output by the history of the file (ReaderSpec), through C27, C29, C30, C33 and C109.
- **C111** The functions of Helpers.v, Message.v and Reader.v are repeated with results that carry the text (`ErrorText.v`); `C111_faithful*` prove that, the texts left out, they are the same functions, so every other property applies. Then each cause of Spec.v is shown to give its text; the type error through the first member of the definition that fails (prefix of the definition decodes); the reader through the inductive relation `trouble` (bad line, foreign header, cut line) and, for whole streams of lines, by induction over the lines.
- **C112** Invariant over all calls (`mild`): pieces bounded, the partial chunk of every continuation bounded, buffer at most max(before, m+p+b), by induction over the loops of read and readline; the partial chunk of a well-formed stream through `prefix_of_stream` (C38); dechunk does not lengthen data by induction over its loop; the reader by an invariance lemma for read() of any stream.
- **C113 Error handlers that use the reader** — `ReaderReentrant.v`: a handler is a program (a tree of steps: look at or change its memory, reader.read(), the read(1)/readline() of the stream, return, raise) run inside read(); by induction on the fuel and the program, the history of one read() is a segment of the happenings; a ledger of owed messages for the handler that keeps one per error; agreement with ReaderHandler.v for handlers that do not read.
- **C114 Changing the settings while a stream is read** — `PropsSettings.v`: one read() over the elements of the stream, for any settings, against a specification that consumes a list of elements; then induction over the calls of an adaptive program.
- **C115** plan: give each helper its signature (an optional argument per default); over the reals reduce to C62, C64 and C65 at the literal WGS84 numbers, compute the equator and the poles; in binary64 instantiate C78 and C79 at the float constants, whose values are proved exact.
- **C116 Interrupts** — `SocketInt.v`: the wrapper over a connection whose recv() may raise. A simulation: the wrapper with an interrupt to come does what the wrapper of `Socket.v` does on the same connection without it, until that one would find the end; for data that ends with CR LF the end is found only between sentences.
- **C117 nmeasocket.py** — `NmeaSocket.v`: the program as a function of host, duration and arguments; output by the history of the data (ReaderSpec) through C116, C36 and C109.
- **C118** (serial port behind io.BufferedReader): `BufferedPort.v` models `BufferedReader(Serial)` by the results of its raw reads; prove by bisimulation that a reader over it behaves as over the port of C88, and by an invariant on the buffer that the loop gated by `in_waiting` lags by at most one raw read.
- **C119** (benchmark.py): `Benchmark.v` models the progress bar and the loops; the thirty messages are read by computation, the number of cycles is arbitrary (induction).

None of the properties is dropped as inexpressible; for C62-C65 the theorem is about ideal real arithmetic, for C78-C81 about binary64.

## 4. Trusted base

* Coq's kernel (vcheck runs `coqchk` over the compiled files as well).
* The correspondence between the model and the code, which is by reading: every definition cites file and lines. The
  generators in `tools/` (`gen_tables.py`, `gen_decodes.py` read the text of nmeatypes_*.py with `ast`; `gen_unicode.py` prints the character
  tables of CPython) are trusted to copy what they read; their output is committed.
* The model of the parts of CPython the code uses (`PyBase`, `PyText`, `PyNum`, `PyFloat`, `PyTime`, `UniTables`).
* The axioms of section 5, all from Coq's standard library.

## 5. Axioms, as listed by `Print Assumptions`

490 of the 664 theorems of MANIFEST.json are closed under the global context (no axioms). The others, all of which mention real
numbers in their statement or (C71, C72, C11_typed, C86, C98, C101_sentence_time, C102, C103, C106) in the accuracy clause of the specification, use axioms of the standard
library only:

| Axioms | Theorems |
|---|---|
| `ClassicalDedekindReals.sig_forall_dec`, `sig_not_dec`, `Classical_Prop.classic`, `FunctionalExtensionality.functional_extensionality_dep` | C43 (5), C44 (4: week, modular_week, milliseconds, exact), C45 (round_trip, exact, default_leap), C46 (4), C47 (4), C48 (2), C49_value, C51 (3), C62 (area_is_surface, haversine_*, planar_meridian, planar_equator), C63 (8), C64_longitude, C65 (10), C66 (text, altitude), C69 (dms, dmm, every_dms, every_dmm, total, inverse_dms, inverse_dmm), C71 (read, functional, parsed, position), C72 (written, placed, slots), C11 (typed, typed_accepted), C75_keywords, all of C78-C81 but the three overflow theorems, C115, C83 (4), C84 (resolved, default, latest), C86 (decoded, signal, status_text), C101_sentence_time, C102 (latest, snapshot, dies, json, short_refuted), C108 (gps, all_or_nothing), C103_form, C103_value, C106 (float, decimal_field, functional, integer_decimal, parsed), C98 (field, rebuilt, sentence, standard, proprietary, prefix, variants, user), C100 (ecef_round_trip, radius, transform, example) |
| the same without `classic` | C62 (area_symmetric, nonnegative, zero, turn, one_turn_refuted, sphere, additive; planar_flat, zero, zero_only, turn, symmetric, symmetric_refuted), C64 (on_ellipsoid, height, normal, zero, zero_axis) |
| `sig_forall_dec`, `functional_extensionality_dep` | C49_unsigned_refuted, C69_integer, C100_listed |

`coqchk` lists more names for the compiled files: the opaque fields of the standard library's sealed real number modules
(`RbaseSymbolsImpl.*`, `RinvImpl.*`, ...) and of ssreflect's `Under_rel`, which are module fields with a definition, not assumptions of a theorem.
Coquelicot (`is_RInt` in C62_area_is_surface; derivatives in lemmas) and Flocq (binary64 lemmas) add no axioms.

## 6. Where the obvious property is false of the code

Each is a `_refuted` theorem (a witness) beside the theorem with the exact condition.

| Theorem | What happens |
|---|---|
| `C02_first_character_refuted` | a first character of the content that becomes a framing character is stripped, and the checksum can fit by chance |
| `C03_ligature_refuted` | the received checksum is upper-cased with `str.upper`, so a ligature such as U+FB00 counts as "FF" |
| `C07_refuted` | `parse` lets IndexError escape (`$PUBX*..`), and ZeroDivisionError for a user-defined empty group |
| `C09_brackets_refuted` | PSSN,SNC brackets are dropped while the received checksum is kept |
| `C10_refuted` | a message without definition built without checksum serializes with `*None` |
| `C11_comma_refuted`, `C11_unreadable_refuted` | commas in text, and integer fields given other text, are written although `parse` cannot read them back |
| `C14_sign_refuted` | dropping the NS/EW field changes the sign of lat/lon |
| `C20_lower_case_refuted` | a lower-case user msgID is known but its definition is never found |
| `C23_delete_refuted`, `C23_payload_refuted` | `del msg.x` and `msg.payload.append` change a message |
| `C27_refuted` | a stray `$` before a sentence hides it |
| `C31_refuted` | nmeaonly does not notice data without `$` |
| `C37_refuted` | files end lines at LF, the socket wrapper at CR LF |
| `C38_refuted` | segment boundaries directly after chunk data, or inside the CR LF that follows, lose data |
| `C41_other_years_refuted` | two-digit years |
| `C44_range_refuted`, `C45_exact_refuted` | time of week of a week or more in the last leap seconds of a week; off by a millisecond |
| `C47_minutes_below_60_refuted` | minutes printed as 60.00000 |
| `C49_unsigned_refuted` | a sign in the minutes |
| `C53_refuted` | DTL is not read by `str2val`: LR2 sentences can be built but not parsed |
| `C55_poll_refuted` | 66 proprietary definitions are in the standard POLL table |
| `C56_underscore_refuted` | `groupsize` raises ValueError for keyword names with text after the first underscore |
| `C57_refuted` | `repr` loses the checksum |
| `C57_quote_refuted` | a quote in the talker (ids not validated) makes `repr(msg)` unreadable |
| `C59_wide_refuted` | pad >= 10 pads with spaces |
| `C61_long_s_refuted` | U+017F |
| `C62_area_one_turn_refuted`, `C62_planar_symmetric_refuted` | area under a turn of one longitude; planar is not symmetric |
| `C78_antipodal_refuted` | in binary64 haversine raises ValueError between some antipodal points (45N 0E, 45S 180E) |
| `C66_negative_altitude_refuted` | negative altitudes are printed `--5.0` |
| `C67_refuted` | the placeholder FOO |
| `C68_reserved_refuted` | keyword names of internal parameters |
| `C69_inverse_refuted` | seconds below 1e-4 are printed with an exponent, which `dms2deg` rejects |
| `C71_python_numerals_refuted` | Python numerals (`1_000`, Unicode digits, `nan`) are accepted as numbers |
| `C72_position_text_refuted` | a position given as text (`lat="51.5"`) is written as an empty field |
| `C74_inside_line_refuted` | a receive failure inside a line loses that line |
| `C39_overflow_refuted` | a chunk size of 2^63 or more makes the constructor, read and readline raise OverflowError |
| `C76_new_reader_refuted` | a second reader on the bare socket does not get what the first one had buffered |
| `C84_live_refuted` | `wnotow2utc(autoroll=True)` of a time just past, leap seconds from the table: a whole rollover period early |
| `C86_several_letters_refuted`, `C86_spelling_refuted` | a GNS posMode of several letters is no key of POSMODE; "Beidou" in one table is "BeiDou" in the others |
| `C87_bare_lf_refuted` | a sentence that ends in LF alone has arrived completely, but `read()` on a `SocketWrapper` waits for another `recv()` before it returns it |
| `C88_one_loop_refuted`, `C88_silent_refuted` | a `for` loop over a serial port ends at the first timeout, although more data comes; a sentence interrupted by a timeout after its first or second byte is lost without any report |
| `C89_text_mode_refuted` | a file of good sentences opened in text mode gives no items and no error, even with ERR_RAISE |
| `C90_no_newline_refuted` | two files of one good sentence each, the first without its line end: read one after the other as one file, neither sentence is delivered |
| `C91_loop_refuted`, `C91_private_refuted` | without checksum validation a corrupted `$PUBX*00` ends a for loop with IndexError, so sentences after it that validation would have let through are lost; a user definition can make the message depend on `validate` |
| `C92_stale_refuted`, `C92_argument_refuted` | a message built with `payload=lst` changes when `lst` is edited, but not its checksum: what it then serializes to is refused; for PSSNSNC the constructor edits the caller's list |
| `C93_lost_refuted`, `C93_torn_refuted` | two threads that read one stream without a lock: a sentence is lost; with VALNONE a message GUBX is delivered that nobody sent |
| `C94_line_end_refuted` | one flipped byte costs two sentences if it is a line end |
| `C95_reserved_refuted` | a keyword named like a parameter of an internal helper is not ignored beside a payload |
| `C96_swapped_refuted` | that the checksum detects every damage: exchanged digits, or the same bit flipped in two digits, give another position |
| `C96_odd_bytes_refuted` | that an odd number of flipped bits, counted in bytes, is always noticed: the checksum is over decoded characters |
| `C98_refuted` | that a message made from the attributes of a parsed one always has its fields: latitude 0 South becomes North, an absent hemisphere is added, absent trailing fields get nominal values, and QTMSENMSG cannot be rebuilt at all |
| `C98_special_refuted` | that the keywords always select the decoder's definition: a disabled `$PQTMCFGPPS` of seven fields comes back with three, and the OK to a `QTMCFGFIXRATE` comes back with the fields of that setting |
| `C99_left_refuted`, `C99_join_refuted`, `C99_noise_refuted` | that the example application displays and sends everything: what is queued at the stop event is lost; a failed write leaves `sendqueue.join()` waiting for ever; while the port delivers only noise nothing is sent and the stop event is not seen |
| `C101_no_fix_refuted` | that the converter skips sentences it cannot use: a GGA without a fix, a short GGA and a line without `*` end it with AttributeError, leaving the file without its closing tags |
| `C102_consistent_refuted` | that the values of one page belong together: while a sentence is dealt with the latitude can be new and the longitude old (no lock) |
| `C102_nan_refuted` | that the page is always JSON: a field `nan` (also `inf`, `1e999`) is accepted as a decimal number and written as `NaN` |
| `C102_short_refuted` | that the server survives a short sentence: a GGA with fewer than 9 fields and a valid checksum ends its thread with AttributeError |
| `C105_malformed_refuted` | that a time or date with lost digits is refused: `12345.00` is read as 12:34:05, `2534.50` as 02:53:04.5, `1124` as 1 January 2024 |
| `C106_unusual_refuted` | that number fields hold plain numerals only: ` +1_2 `, Arabic digits, `1e400`, `nan` and `-iNFinity` are accepted |
| `C107_announced_refuted` | that quecteldemo.py sends the commands its comments announce: six constructor results are not assigned and never sent, in any run |
| `C108_icon_refuted` | `favicon.ico` is read as text but is not UTF-8: `/favicon.ico` is never answered (the handler ends with UnicodeDecodeError) |
| `C109_refuted` | an empty attribute name makes `str()` raise IndexError; a lone surrogate makes `serialize()` raise |
| `C110_pubx_refuted` | `$PUBX*1F` in the log ends `nmeafile.py`; a file name with `=` is refused |
| `C111_mode_refuted` | a mode of more than 4300 digits gives ValueError (its text cannot be written), not NMEAParseError/NMEAMessageError; the main model simplifies this to the library's error |
| `C112_chunked_refuted` | a peer that never completes a chunk makes the wrapper keep everything, while read() returns b'' |
| `C116_refuted` | Ctrl-C within a sentence: what had arrived of it is lost, and the loop started again does not deliver the sentence |
| `C117_refuted` | `nmeasocket.py` leaves out the days of the session: a session of a day and a second counts as one second, one of exactly a day (or no time) ends with ZeroDivisionError |
| `C118_refuted` | that the web server shows every complete sentence that has arrived: with several sentences in one raw read, the last stay in the buffer until more bytes arrive |
| `C119_few_refuted` | that the benchmark runs for any number of cycles: with 1 to 19 the progress bar raises ZeroDivisionError |
| `C104_refuted` | that a message which can be built can be serialized: a payload list holding a number gives TypeError |
| `C103_separator_refuted` | that only a final S or W makes an angle negative: `51W30.0′N` reads as -51.5 |

## 7. Tests against wrong programs

`seeded/LOG.jsonl` records every edited model tried: the definition, the edit, the claim it breaks, the theorems that failed
and those that were tightened because of it. The edits are applied to a scratch copy, never here.
