{
 "C02": {
  "note": "Holds unless the altered character is a framing character (witness: C02_first_character_refuted)."
 },
 "C03": {
  "note": "str.upper maps ligatures to ASCII letters, so a received checksum need not be two ASCII characters (C03_ligature_refuted)."
 },
 "C07": {
  "note": "The exact conditions of the IndexError and ZeroDivisionError that escape are part of the theorem."
 },
 "C09": {
  "note": "PSSNSNC brackets are the only exception (C09_brackets_refuted)."
 },
 "C10": {
  "note": "Explicit exceptions: surrogates; messages without definition (C10_none, C10_refuted)."
 },
 "C11": {
  "note": "Two general theorems with the readability condition, and C11_typed* for well-typed keyword values where it holds by construction."
 },
 "C14": {
  "note": "Stated up to the sign of lat/lon (C14_sign_refuted); C14_magnitude: dropping trailing fields changes no attribute's magnitude."
 },
 "C20": {
  "note": "Lower-case user ids: C20_lower_case_refuted."
 },
 "C23": {
  "note": "Covers assignment sequences; deletion and editing .payload are shown to change the message."
 },
 "C27": {
  "note": "A stray '$' hides a sentence: C27_refuted."
 },
 "C31": {
  "note": "The stronger reading (any foreign data is noticed) is refuted."
 },
 "C37": {
  "note": "Proved when every line ends CR LF; refuted for a bare LF."
 },
 "C38": {
  "note": "Proved for all cuts except the two kinds that lose data, which are shown to (C38_refuted)."
 },
 "C39": {
  "note": "zlib.decompress is an arbitrary function that may fail."
 },
 "C44": {
  "note": "Exact ranges, including the overrun in the last leap seconds of a week."
 },
 "C45": {
  "note": "Exceptions shown by C45_exact_refuted."
 },
 "C53": {
  "note": "DTL cannot be read; FOO is a placeholder."
 },
 "C55": {
  "note": "The unreachable definitions are listed in the theorem and shown unreachable."
 },
 "C57": {
  "note": "The text for every message with quotable talker and msgID; the reconstruction for parsed messages of built-in ids with right checksum and default settings; C57_refuted, C57_quote_refuted otherwise."
 },
 "C62": {
  "note": "Over ideal real arithmetic; C78 and C79 are the binary64 counterparts (there haversine can raise near antipodal points)."
 },
 "C63": {
  "note": "Over ideal real arithmetic; C79 is the binary64 counterpart."
 },
 "C64": {
  "note": "Over ideal real arithmetic; C80 is the binary64 counterpart."
 },
 "C65": {
  "note": "Over ideal real arithmetic; the accuracy bound of the truncated iteration is proved. The binary64 computation is C81."
 },
 "C71": {
  "note": "Specification ValueSpec.v; Python-only numerals are shown to be accepted too."
 },
 "C72": {
  "note": "Specification ValueSpec.v."
 },
 "C75": {
  "note": "File and plain connection; C75_relay for arbitrary input streams."
 },
 "C76": {
  "note": "Resuming for any stream object; the catching application for files and plain connections."
 },
 "C78": {
  "note": "The accuracy of the C library (sin, cos, asin, acos, atan2, pow(x, 2) within 1 ulp, and annex F exact cases) is a hypothesis of the theorems, shown to be satisfiable by exact_libm_ok. C78_antipodal_refuted additionally assumes cos within 0.6 ulp."
 },
 "C79": {
  "note": "The accuracy of the C library (sin, cos, asin, acos, atan2, pow(x, 2) within 1 ulp, and annex F exact cases) is a hypothesis of the theorems, shown to be satisfiable by exact_libm_ok."
 },
 "C80": {
  "note": "The accuracy of the C library (sin, cos, asin, acos, atan2, pow(x, 2) within 1 ulp, and annex F exact cases) is a hypothesis of the theorems, shown to be satisfiable by exact_libm_ok."
 },
 "C81": {
  "note": "The accuracy of the C library (sin, cos, asin, acos, atan2, pow(x, 2) within 1 ulp, and annex F exact cases) is a hypothesis of the theorems, shown to be satisfiable by exact_libm_ok."
 },
 "C82": {
  "note": "ReaderHandler.v is the loop of Reader.v with a handler that has a memory; C82_memoryless shows that the two models agree on handlers without one."
 },
 "C83": {
  "note": "Hypotheses as in C11 (bundled as `generated`); C83_conditions derives them from conditions on the keywords and the text. The hemisphere fields themselves are C16."
 },
 "C84": {
  "note": "C84_live_refuted: a message just received, leap seconds from the table: the result is 19.6 years early. As stated the property excludes this."
 },
 "C85": {
  "note": "send() is any function of the data; C35 is the same for read(n >= 0) and readline alone."
 },
 "C86": {
  "note": "C86_spelling_refuted: 'Beidou' against 'BeiDou'; C86_several_letters_refuted: a GNS posMode of several letters, and '01' as a system, spell no key."
 },
 "C87": {
  "note": "C87_needed: every history of methods (the `does`/`history` relations of C85). C87_memory: bound of in_waiting from __init__ on. C87_prompt/C87_at_once: NMEAReader on the wrapper; C87_at_once has no condition on the encoding. C87_bare_lf_refuted: a sentence ended by LF alone is delivered only after one more recv()."
 },
 "C88": {
  "note": "The port (bytes and timeouts) is a model of the stream object, which is not part of the repository (pyserial's read(1)/readline()). C88_bursts: every port is of the form the theorems speak of. C88_one_loop_refuted and C88_silent_refuted show what is not guaranteed."
 },
 "C89": {
  "note": "ReaderAny.v is the loop of nmeareader.py over values of four kinds; C89_bytes shows that it agrees with Reader.v on bytes, for every stream object. C89_text_mode_refuted: a text-mode file of good sentences gives nothing, silently, even with ERR_RAISE."
 },
 "C90": {
  "note": "For applications that carry on after an exception (C90_two, C90_many, C90_noise) and for loops that end normally (C90_loops). C90_no_newline_refuted: without the final line end two sentences are lost."
 },
 "C91": {
  "note": "C91_loop_refuted: without validation a corrupted sentence can end a for loop with IndexError and so lose the sentences after it. C91_private_refuted: a definition with a group repeated \"_validate\" times."
 },
 "C92": {
  "note": "Objects.v is a heap of lists and objects over the functions of Message.v/Reader.v (deletion restricted to public attributes). C92_stale_refuted: a message built from a list that is edited later serializes with a stale checksum, which parse() refuses; C92_argument_refuted: the constructor edits the caller's list for PSSNSNC."
 },
 "C93": {
  "note": "Threads.v: small-step machine of read(), one step per stream call; read_alone proves that an uninterrupted run is Reader.v's read(). C93_turns: there is a schedule for every order of turns. C93_lost_refuted, C93_torn_refuted: what can go wrong without a lock."
 },
 "C94": {
  "note": "What an application that goes on after exceptions sees (as in C76). C94_local is the general statement for arbitrary lines, C94_sentences for sentences and arbitrary damage; C94_detected combines it with C02."
 },
 "C95": {
  "note": "C95_keywords and C95_payload are equalities of the whole result; C95_definitions is sameness of everything the API shows. C95_reserved, C95_reserved_error: the colliding names."
 },
 "C96": {
  "note": "C96_detected and C96_undetected are the exact criterion, in terms of the parity of each bit; C96_odd, C96_burst (for bytes of an ASCII sentence, including damage that makes UTF-8 of it), C96_lost, C96_put_in, C96_two, C96_permuted and C96_digit, C96_case are the kinds of damage. C96_swapped_refuted: exchanged digits give another position unnoticed. C96_odd_bytes_refuted: counted in bytes an odd number of flips can pass, because the checksum is taken over decoded characters."
 },
 "C97": {
  "note": "C97_keywords, C97_payload: what can escape; C97_message_error: the exact condition, for keywords that are not parameter names of helpers and msgId/msgtype given as text (otherwise NMEATypeError may come first); C97_payload_keywords: keywords beside a payload. Resource exhaustion (MemoryError, RecursionError) and values of other types are outside the model."
 },
 "C98": {
  "note": "Exact round trip for every sentence whose fields match the definition; zero south/west positions, missing hemispheres, missing trailing fields and group names with an underscore are the exceptions, shown by C98_refuted."
 },
 "C99": {
  "note": "Every schedule, every port object. The threads' steps are the operations on the queues, the event and the port; the read() inside is the step machine of C93, which refines the reader model."
 },
 "C100": {
  "note": "All 124 entries are decided by computation on their floats; the round trip composes C81 with the error analysis of C80 extended to computed angles slightly beyond 90/180 degrees and a Lipschitz bound for positions."
 },
 "C101": {
  "note": "C101_written and C101_stops describe the file for every log (C101_cases: one of the two applies); C101_document: well-formed iff no exception (XmlSpec.v); C101_sentence, C101_sentence_time: which GGA sentences have what is needed; C101_log: a log of such sentences. C101_no_fix_refuted: a sentence without a fix, a short one and a line without '*' each end the program."
 },
 "C102": {
  "note": "C102_latest, C102_snapshot, C102_dies, C102_sentences, C102_json, C102_readings. Refuted: entries that belong together (C102_consistent_refuted), JSON for a field such as \"nan\" (C102_nan_refuted), surviving a short sentence (C102_short_refuted)."
 },
 "C103": {
  "note": "C103_form (exactly the texts of the form), C103_error, C103_value. C103_separator_refuted: S or W as a separator also makes the angle negative. Added after a seeded bug (degrees alone refused) that only a concrete example had noticed."
 },
 "C104": {
  "note": "Items.v repeats the payload branch of the constructor for lists of values; C104_texts proves that on lists of texts it is Message.v. C104_payload, C104_checksum and C104_serialize hold for every message id and keyword argument; C104_plain, C104_groups, C104_unknown and C104_refused for ids whose definition does not depend on the value of an item (all but UBX/ASHR-style prefixes, QTMSN, STMDRSENMSG). C104_plain is for definitions without groups, C104_groups and C104_builtin for all well-formed ones (C13's layout). C104_selector: for the others a first item that is not a text is refused. C104_refuted: building does not imply that the message can be serialized (GPHDT with payload [12, 'T'])."
 },
 "C105": {
  "note": "C105_time, C105_date, C105_otherwise: iff, against a grammar of parts with the longest-match rule stated on lists of parts; C105_time_shape, C105_six, C105_six_date: consequences; C105_malformed_refuted: damaged texts read as other times and dates."
 },
 "C106": {
  "note": "C106_int, C106_float: iff, against a grammar; C106_integer_field, C106_decimal_field: fields, with ValueError for the rest; C106_functional, C106_integer_decimal, C106_parsed: consequences; C106_unusual_refuted: texts that are no NMEA numbers but are accepted."
 },
 "C107": {
  "note": "Demos.v models both main programs statement by statement on top of the thread model of C99. C107_sent/C107_all_sent are for every such program, C107_poller, C107_quectel, ..._all for the two. C107_announced_refuted: the six commands never sent; C107_announced: they are what the calls build."
 },
 "C108": {
  "note": "The handler's answer as the status line, content type and body; guess_type of http.server is a parameter; locale encoding UTF-8. The wish that the icon is served is refuted by C108_icon_refuted."
 },
 "C109": {
  "note": "C109_refuted: an empty attribute name in a user definition, and a lone surrogate in a str."
 },
 "C110": {
  "note": "C110_pubx_refuted: the line $PUBX*1F hides the rest of the file, and a file name with '=' is refused. Printing is a list of texts; encoding of the terminal is C109."
 },
 "C111": {
  "note": "C111_faithful* prove that the functions with texts are the functions of the other properties with the text added; the mode of more than 4300 digits is C111_mode_refuted. Texts of Python's own exceptions are not modelled."
 },
 "C112": {
  "note": "The unbounded growth by an unfinished chunk is C112_chunked_refuted."
 },
 "C113": {
  "note": "C113_file, C113_socket: for any handler program that uses read(), the history is a prefix of the happenings of the stream, all of them if the loop ends normally; C113_bytes: pieces of the stream, for handlers that also read from the stream; C113_salvage: who gets which message, exactly; C113_nothing_lost: program and handler share the messages; C113_without_reading: agreement with the model of C82. A chain of handlers as deep as Python's recursion limit is outside the model."
 },
 "C114": {
  "note": "C114_file, C114_socket: the program over the bytes does what `served`, a specification over the elements of the stream, says; C114_lines: each line at most once, in order; C114_one_each: one element for each call. A second reader on the bare socket is another matter (C76_new_reader_refuted, C112)."
 },
 "C115": {
  "note": "Proved over the reals and (C115_float_*) in binary64 with the hypotheses of C78/C79 about the C library. The signatures are modelled in GeoDefaults.v. The overflow of pow() is C79_overflow and C80_overflow."
 },
 "C116": {
  "note": "C116_interrupted: any connection; C116_resume: whole lines, nothing lost, the loop goes on; C116_steady: without interrupts the model is that of C34-C39; C116_open, C116_opened: the constructor; C116_refuted: within a sentence. Interrupts that Python delivers between two bytecodes (not in recv()) are outside the model."
 },
 "C117": {
  "note": "C117_arguments, C117_unreachable: command line and connection; C117_prints: what is printed and how it ends; C117_seconds, C117_refuted: the duration. The figures are rationals in the model, not formatted text."
 },
 "C118": {
  "note": "BufferedPort.v models io.BufferedReader over Serial by the results of its raw reads; bisimulation with the port of C88. C118_refuted: two bursts of two sentences, the last sentence is not read and the altitude shown is the one before."
 },
 "C119": {
  "note": "Benchmark.v; induction on the cycles. The figures are rationals, the rounding to two decimals and the texts about the platform are not modelled."
 }
}