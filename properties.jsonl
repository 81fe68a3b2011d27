{"id": "C01", "title": "Checksum value", "statement": "calc_checksum(content) is the bitwise XOR of all character codes of content, written in upper-case hexadecimal, zero padded to two digits; for content made of characters below U+0100 it is exactly two digits long, and it does not depend on the order of the characters.", "quantifier": "every string, of any length", "why_tests_cant": "unit tests check a handful of sentences; the claim is about all strings", "anchors": ["src/pynmeagps/nmeahelpers.py:calc_checksum"]}
{"id": "C02", "title": "A single corrupted character is always detected", "statement": "If exactly one character of a frame's content is replaced by a different one, the checksum changes, so parse() of the altered sentence with VALCKSUM raises NMEAParseError and never returns a message (as long as the altered character is not a framing character).", "quantifier": "every sentence, every position, every replacement character", "why_tests_cant": "the number of sentences x positions x characters is unbounded", "anchors": ["src/pynmeagps/nmeahelpers.py:calc_checksum", "src/pynmeagps/nmeareader.py:NMEAReader.parse"]}
{"id": "C03", "title": "Checksum gate", "statement": "With VALCKSUM set, parse() returns a message only if the checksum field, upper-cased, equals the checksum of the content; if the frame is well formed and they differ it raises NMEAParseError, whatever else the sentence contains and whatever the other flags are.", "quantifier": "every input bytes/str, msgmode, validate value and user definition dictionary", "why_tests_cant": "tests try a few wrong checksums", "anchors": ["src/pynmeagps/nmeareader.py:NMEAReader.parse", "src/pynmeagps/nmeahelpers.py:get_parts"]}
{"id": "C04", "title": "Checksum ignored when validation is off", "statement": "Without VALCKSUM, the checksum field has no influence on parse(): two frames differing only in the checksum field give the same outcome, and the messages agree on everything except the .checksum attribute, which is the field as received.", "quantifier": "every content, every pair of checksum fields, mode, flags without VALCKSUM, user definitions", "why_tests_cant": "needs all pairs of checksum fields", "anchors": ["src/pynmeagps/nmeareader.py:NMEAReader.parse"]}
{"id": "C05", "title": "Frame decomposition is lossless", "statement": "get_parts(message) succeeds exactly on frames that contain a '*' after stripping leading/trailing '$', CR and LF; content is what precedes the first '*', the checksum is what follows it, and talker + msgID + ',' joined payload gives content back; the talker is one character if the header starts with 'P', else two. Conversely get_parts of '$' talker msgID fields '*' cksum CRLF returns exactly those parts.", "quantifier": "every str or bytes message; every talker/msgID/payload/checksum free of framing characters", "why_tests_cant": "unbounded strings", "anchors": ["src/pynmeagps/nmeahelpers.py:get_parts"]}
{"id": "C06", "title": "Malformed input never yields a message", "statement": "If the input is not valid UTF-8, or has no '*', parse() returns None when VALMSGID is not set and raises NMEAParseError when it is; it never returns a message and raises nothing else.", "quantifier": "every malformed byte string, mode and flag combination", "why_tests_cant": "all malformed inputs", "anchors": ["src/pynmeagps/nmeareader.py:NMEAReader.parse", "src/pynmeagps/nmeahelpers.py:get_parts"]}
{"id": "C07", "title": "Exceptions raised by parse()", "statement": "For every input parse() either returns or raises NMEAParseError or NMEATypeError, with exactly two exceptions: IndexError, exactly when a sentence that passes the checksum and VALMSGID tests lacks the payload field its definition is selected by (no field after a prefix-style msgID such as PUBX, a PASHR first field shorter than two characters, PQTMSN without fields in GET mode); and ZeroDivisionError, only when the caller's own user dictionary contains an indeterminate group without members.", "quantifier": "every input, mode, validate flags, user definition dictionary", "why_tests_cant": "a fuzzer can only sample inputs", "anchors": ["src/pynmeagps/nmeareader.py:NMEAReader.parse", "src/pynmeagps/nmeamessage.py:NMEAMessage._get_dict"]}
{"id": "C08", "title": "parse after serialize", "statement": "Parsing the serialized form of a message gives the message back: for every message obtained from parse(), parse(msg.serialize()) with the same mode, flags and user definitions is the identical message, and for every message constructed from a payload list with a checksum matching its content it is equal in talker, msgID, payload, checksum and every public attribute (for fields free of framing characters). The only exception is PSSNSNC, whose bracket characters are dropped from the payload.", "quantifier": "every message obtained from parse() or from the payload constructor", "why_tests_cant": "all messages of all definitions", "anchors": ["src/pynmeagps/nmeamessage.py:NMEAMessage.serialize", "src/pynmeagps/nmeareader.py:NMEAReader.parse"]}
{"id": "C09", "title": "serialize after parse", "statement": "If parse(b) returns a message, its serialize() is '$' + content + '*' + checksum + CRLF where content and checksum are those of b: exactly b for a frame that starts with a single '$' and ends with a single CRLF. The only exception is PSSNSNC with bracketed fields, whose brackets are dropped while the received checksum is kept.", "quantifier": "every byte string that parses", "why_tests_cant": "all byte strings", "anchors": ["src/pynmeagps/nmeamessage.py:NMEAMessage.serialize", "src/pynmeagps/nmeareader.py:NMEAReader.parse"]}
{"id": "C10", "title": "Serialized form", "statement": "serialize() returns the UTF-8 encoding of '$' + talker + msgID + (',' + field)* + '*' + checksum + CR LF; it fails exactly if a string contains a surrogate (or no code point). A message built without an explicit checksum carries the right one if its definition is known (otherwise none, and the sentence ends in '*None'); an explicit checksum is used as it is.", "quantifier": "every message object", "why_tests_cant": "all messages", "anchors": ["src/pynmeagps/nmeamessage.py:NMEAMessage.serialize", "src/pynmeagps/nmeahelpers.py:generate_checksum"]}
{"id": "C11", "title": "Generated messages are accepted", "statement": "A message constructed from keyword arguments serializes to a frame that parse() with VALCKSUM accepts, and the parsed message has the same talker, msgID, payload, checksum and attribute names, with attributes decoded by the same definition, provided no field text contains a comma or framing character, every field text can be read back as its type (it always can when the keywords of integer fields are ints or integer text and those of decimal fields are numbers or decimal text), and the payload does not select another definition (an OK/ERROR acknowledgement, a numeric QTMSN serial number, a PASHR message id whose second character is a digit).", "quantifier": "every definition, mode and keyword assignment", "why_tests_cant": "all keyword values", "anchors": ["src/pynmeagps/nmeamessage.py:NMEAMessage._do_attributes", "src/pynmeagps/nmeareader.py:NMEAReader.parse"]}
{"id": "C12", "title": "Field decoding for plain definitions", "statement": "A parsed message whose definition has no repeating group has exactly one public attribute per definition entry for which the payload has a field, in definition order, each the typed conversion of the field at the same position (before the NS/EW sign override).", "quantifier": "every group-free definition, every payload", "why_tests_cant": "all payloads, all definitions incl. user-defined ones", "anchors": ["src/pynmeagps/nmeamessage.py:NMEAMessage._set_attribute_single", "src/pynmeagps/nmeamessage.py:NMEAMessage.str2val"]}
{"id": "C13", "title": "Repeating groups", "statement": "Members of a repeating group appear once per repeat with suffix _01, _02, ... (at least two digits), consuming consecutive fields; the number of repeats is the fixed count, or the named earlier integer attribute, or for an indeterminate group the number of whole repeats that fit in the remaining fields.", "quantifier": "every definition with groups, any repeat count, every payload", "why_tests_cant": "unbounded repeat counts", "anchors": ["src/pynmeagps/nmeamessage.py:NMEAMessage._set_attribute_group", "src/pynmeagps/nmeamessage.py:NMEAMessage._calc_num_repeats"]}
{"id": "C14", "title": "Short and long payloads", "statement": "Adding fields beyond the definition adds no attribute and changes none. Dropping trailing fields (the definition chosen staying the same, no indeterminate group, and the fields that hold repeat counts being kept) only removes attributes: those obtained from the shorter payload are a prefix of those from the whole one, up to the sign of lat/lon, which follows a later NS/EW field. If the field holding a repeat count is dropped as well, parse() raises NMEATypeError.", "quantifier": "every definition without indeterminate groups, every payload and every prefix", "why_tests_cant": "all prefixes of all payloads", "anchors": ["src/pynmeagps/nmeamessage.py:NMEAMessage._set_attribute_single"]}
{"id": "C15", "title": "Sign of lat/lon follows NS/EW", "statement": "After parsing, if the message has a numeric lat (lon) followed by a NS (EW) field, lat is negative or zero iff that field is 'S' (lon: 'W') and otherwise non-negative, with the magnitude unchanged.", "quantifier": "every payload of every definition", "why_tests_cant": "all values", "anchors": ["src/pynmeagps/nmeamessage.py:NMEAMessage._set_attribute_single"]}
{"id": "C16", "title": "NS/EW derived from sign on construction", "statement": "Constructing a message from signed lat/lon keywords yields an NS field 'S' iff lat is negative and EW 'W' iff lon is negative, regardless of any NS/EW keyword supplied; parsing the generated sentence recovers the sign.", "quantifier": "every numeric lat/lon and keyword assignment", "why_tests_cant": "all values", "anchors": ["src/pynmeagps/nmeamessage.py:NMEAMessage._set_attribute_single", "src/pynmeagps/nmeahelpers.py:ddd2dmm"]}
{"id": "C17", "title": "Unknown sentences keep every field", "statement": "A sentence whose msgID has no definition is (without VALMSGID) parsed to a message with exactly one string attribute field_NN per payload field, numbered from 01 in order, equal to the raw field.", "quantifier": "every unknown msgID and payload of any length", "why_tests_cant": "unbounded payloads", "anchors": ["src/pynmeagps/nmeamessage.py:NMEAMessage._set_attribute_nominal"]}
{"id": "C18", "title": "VALMSGID", "statement": "With VALMSGID set, parse() returns a message only if the talker is recognised and the msgID is a built-in, proprietary or user-defined one that has a definition for the mode; otherwise NMEAParseError. Without it an unknown talker or msgID is never an error.", "quantifier": "every sentence and user definition dictionary", "why_tests_cant": "all sentences", "anchors": ["src/pynmeagps/nmeamessage.py:NMEAMessage.__init__", "src/pynmeagps/nmeamessage.py:NMEAMessage._get_dict", "src/pynmeagps/nmeareader.py:NMEAReader.parse"]}
{"id": "C19", "title": "msgmode validation", "statement": "parse(), NMEAReader() and NMEAMessage() reject every msgmode other than 0, 1, 2 before looking at anything else: the first two with NMEAParseError, the last with NMEAMessageError.", "quantifier": "every integer mode and every other argument", "why_tests_cant": "all integers", "anchors": ["src/pynmeagps/nmeamessage.py:NMEAMessage.__init__", "src/pynmeagps/nmeareader.py:NMEAReader.__init__", "src/pynmeagps/nmeareader.py:NMEAReader.parse"]}
{"id": "C20", "title": "User-defined definitions", "statement": "A sentence whose msgID is not built in and is an (upper-case) key of the user dictionary is decoded with the user's definition; built-in msgIDs are never affected by the user dictionary. A user msgID that is not upper case counts as known but its definition is never found: it is treated as an unknown sentence.", "quantifier": "every user dictionary and sentence", "why_tests_cant": "all dictionaries", "anchors": ["src/pynmeagps/nmeamessage.py:NMEAMessage.__init__", "src/pynmeagps/nmeamessage.py:NMEAMessage._get_dict"]}
{"id": "C21", "title": "Prefix-style proprietary messages", "statement": "For the prefixes whose first payload field is a message id (ASHR, GPPADV, FEC, SSN, TNL, UBX) the definition used is that of prefix + first field (upper-cased), except PASHR whose first field's second character is a digit, which uses ASHR; a missing msgId keyword on construction raises NMEAMessageError.", "quantifier": "every payload / keyword set", "why_tests_cant": "all payloads", "anchors": ["src/pynmeagps/nmeamessage.py:NMEAMessage._get_dict"]}
{"id": "C22", "title": "Quectel command variants", "statement": "For QTMCFGUART, QTMCFGMSGRATE, QTMCFGPPS, QTMCFGSAT, QTMCFGGEOFENCE, QTMSN, STMDRSENMSG and the OK/ERROR acknowledgements, the definition chosen is a function of msgmode and of the number of fields (or first field, or keywords) only, as documented per variant, and every variant name reachable for a mode exists in that mode's table or gives the unknown-message behaviour.", "quantifier": "every payload, mode and keyword set", "why_tests_cant": "all payloads", "anchors": ["src/pynmeagps/nmeamessage.py:NMEAMessage._get_dict_prop"]}
{"id": "C23", "title": "Immutability", "statement": "Once constructed, a message cannot be changed through attribute assignment: any sequence of assignments raises NMEAMessageError each time and leaves payload, checksum, identity, serialize() and all attributes unchanged. (Deleting an attribute, and editing the list handed out by .payload, are not prevented and do change it.)", "quantifier": "every message, every finite sequence of operations", "why_tests_cant": "sequences of unbounded length", "anchors": ["src/pynmeagps/nmeamessage.py:NMEAMessage.__setattr__"]}
{"id": "C24", "title": "Identity", "statement": "identity is talker + msgID, plus the msgId attribute for talker P and the prefix-style proprietary msgIDs if it is present.", "quantifier": "every message", "why_tests_cant": "all messages", "anchors": ["src/pynmeagps/nmeamessage.py:NMEAMessage.identity"]}
{"id": "C25", "title": "str() lists exactly the public attributes", "statement": "str(msg) is '<NMEA(' identity [', NOMINAL' iff the msgID is unrecognised] then ', name=value' for each public attribute in the order they were set and ')>'.", "quantifier": "every message", "why_tests_cant": "all messages", "anchors": ["src/pynmeagps/nmeamessage.py:NMEAMessage.__str__"]}
{"id": "C26", "title": "Reader returns contiguous slices in order", "statement": "Each raw value returned by NMEAReader over a byte stream is a contiguous block of the input starting at '$' and a recognised second byte and ending at the first LF after it; successive raws are disjoint and in stream order; every byte read is either in one raw or discarded, and no byte is read beyond the end of the returned line.", "quantifier": "every finite byte stream, every configuration, any number of reads", "why_tests_cant": "all streams and read sequences", "anchors": ["src/pynmeagps/nmeareader.py:NMEAReader.read"]}
{"id": "C27", "title": "Reader delivers every sentence", "statement": "If the stream is a sequence of parseable sentences separated by arbitrary bytes containing no '$', iteration yields exactly those sentences in order, each with parse(sentence), then stops. (A stray '$' directly before a sentence hides it.)", "quantifier": "every number of sentences, every filler", "why_tests_cant": "unbounded streams", "anchors": ["src/pynmeagps/nmeareader.py:NMEAReader.read", "src/pynmeagps/nmeareader.py:NMEAReader.__next__"]}
{"id": "C28", "title": "Reader terminates", "statement": "On every finite stream read() returns or raises after consuming at most the remaining bytes, and iteration stops after at most as many items as there are '$' bytes.", "quantifier": "every finite stream, every configuration", "why_tests_cant": "non-termination cannot be observed by a test", "anchors": ["src/pynmeagps/nmeareader.py:NMEAReader.read"]}
{"id": "C29", "title": "Error policy", "statement": "With quitonerror=ERR_IGNORE no protocol error escapes read() and no handler is called; with ERR_LOG the handler (or logger) gets each error exactly once, in stream order, and, if the handler returns, none escapes; if the handler raises, its exception ends the loop, with the items before it delivered; with ERR_RAISE the first error is raised; any other value acts as ERR_IGNORE. The sequence of sentences delivered under ERR_IGNORE and ERR_LOG (with a handler that returns) is the same. Only the IndexError and ZeroDivisionError of C07, which are not protocol errors, escape under every policy.", "quantifier": "every stream and configuration", "why_tests_cant": "all streams and error placements", "anchors": ["src/pynmeagps/nmeareader.py:NMEAReader.read", "src/pynmeagps/nmeareader.py:NMEAReader._do_error"]}
{"id": "C30", "title": "Resynchronisation after an error", "statement": "After a line that fails to parse, reading resumes at the byte after that line: what follows is delivered as if the bad line were not there.", "quantifier": "every bad line and every continuation of the stream", "why_tests_cant": "all continuations", "anchors": ["src/pynmeagps/nmeareader.py:NMEAReader.read"]}
{"id": "C31", "title": "nmeaonly", "statement": "With nmeaonly=True a '$' followed by a byte that starts no NMEA talker is reported as NMEAParseError through the error policy; with False it is skipped silently. Data without '$' is skipped silently in both cases (so UBX or RTCM3 data need not be noticed).", "quantifier": "every stream", "why_tests_cant": "all streams", "anchors": ["src/pynmeagps/nmeareader.py:NMEAReader.read"]}
{"id": "C32", "title": "Truncated streams", "statement": "A stream ending inside a line makes read() report NMEAStreamError through the error policy and then signal end of data; ending between lines or after a header gives (None, None) with no error. No partial sentence is ever returned.", "quantifier": "every stream and cut point", "why_tests_cant": "every cut point", "anchors": ["src/pynmeagps/nmeareader.py:NMEAReader._read_line", "src/pynmeagps/nmeareader.py:NMEAReader._read_bytes"]}
{"id": "C33", "title": "Parsed value belongs to its raw value", "statement": "Every (raw, parsed) pair returned by read() satisfies parsed = parse(raw) for the configured mode, flags and definitions; raw is never None; parsed is None exactly when parse(raw) returns None.", "quantifier": "every stream object (any read/readline behaviour) and configuration", "why_tests_cant": "all streams", "anchors": ["src/pynmeagps/nmeareader.py:NMEAReader.read"]}
{"id": "C34", "title": "Socket read(n)", "statement": "SocketWrapper.read(n) returns exactly n bytes, the next n of the stream, or b'' if the socket ends or fails first, in which case nothing is lost: the bytes already received stay buffered for the next call.", "quantifier": "every sequence of recv results (data of any size, errors, close) and every n", "why_tests_cant": "all segmentations and failure points", "anchors": ["src/pynmeagps/socketwrapper.py:SocketWrapper.read"]}
{"id": "C35", "title": "Socket stream integrity", "statement": "Without chunked encoding neither the constructor nor read or readline raises, and for any sequence of read/readline calls the bytes returned, followed by the buffer, are exactly the bytes received so far, in order.", "quantifier": "every sequence of calls and recv results", "why_tests_cant": "all histories", "anchors": ["src/pynmeagps/socketwrapper.py:SocketWrapper"]}
{"id": "C36", "title": "Segmentation invariance", "statement": "What NMEAReader delivers from a socket depends only on the concatenated bytes, not on how recv() splits them.", "quantifier": "every byte stream and every two segmentations", "why_tests_cant": "all segmentations", "anchors": ["src/pynmeagps/socketwrapper.py:SocketWrapper", "src/pynmeagps/nmeareader.py:NMEAReader.read"]}
{"id": "C37", "title": "Socket and file agree", "statement": "Reading a byte stream through a socket delivers the same sentences, errors and events as reading it from a binary file, provided every line ends CR LF. (A socket line ends only at CR LF, a file line at LF: streams with bare LF differ.)", "quantifier": "every byte stream", "why_tests_cant": "all streams", "anchors": ["src/pynmeagps/socketwrapper.py:SocketWrapper.readline", "src/pynmeagps/nmeareader.py:NMEAReader.read"]}
{"id": "C38", "title": "Chunked decoding", "statement": "With chunked encoding the buffered data is the concatenation of the decompressed chunk payloads, for any split of the encoded stream into recv segments that does not fall directly after the data of a chunk or inside the CR LF that follows it. After a cut of the first kind the next segment is lost; after one of the second kind nothing is ever delivered again.", "quantifier": "every chunk sequence, every segmentation", "why_tests_cant": "all segmentations", "anchors": ["src/pynmeagps/socketwrapper.py:SocketWrapper.dechunk", "src/pynmeagps/socketwrapper.py:SocketWrapper._recv"]}
{"id": "C39", "title": "Chunk decoding failures stay contained", "statement": "dechunk always terminates, on any bytes, and does not raise unless a size line has at least 16 hexadecimal digits; complete chunks followed by a size of 2^63 or more make it, and with it the wrapper's constructor, read and readline, raise OverflowError. A decompression error leaves the chunk as far as it has been decoded (as received if the first step fails) and drops nothing.", "quantifier": "every byte string", "why_tests_cant": "all byte strings", "anchors": ["src/pynmeagps/socketwrapper.py:SocketWrapper.dechunk"]}
{"id": "C40", "title": "Time round trip", "statement": "time2utc(time2str(t)) is t truncated to hundredths of a second for every time of day; time2utc of an 'hhmmss' or 'hhmmss.s...' string (1 to 6 decimals) with valid digits is that time.", "quantifier": "all 86.4e9 microsecond times of day", "why_tests_cant": "too many times to enumerate", "anchors": ["src/pynmeagps/nmeahelpers.py:time2utc", "src/pynmeagps/nmeahelpers.py:time2str"]}
{"id": "C41", "title": "Date round trip", "statement": "date2utc(date2str(d, f), f) = d for every date from 1969-01-01 to 2068-12-31 for DT and DM, and for every date of the years 1000 to 9999 for DTL (outside these years another date can result).", "quantifier": "every valid date", "why_tests_cant": "tests try a few", "anchors": ["src/pynmeagps/nmeahelpers.py:date2utc", "src/pynmeagps/nmeahelpers.py:date2str"]}
{"id": "C42", "title": "Date/time parsing is total", "statement": "time2utc and date2utc never raise on a string; they return a valid time/date or ''.", "quantifier": "every string and format", "why_tests_cant": "all strings", "anchors": ["src/pynmeagps/nmeahelpers.py:time2utc", "src/pynmeagps/nmeahelpers.py:date2utc"]}
{"id": "C43", "title": "Leap seconds", "statement": "leapsecond(d) is 0 before 1972 and otherwise the tabulated TAI-UTC at d minus that at the system's epoch; it is non-decreasing in d from 1972 on, and for BeiDou it is the GPS value minus 14.", "quantifier": "every datetime and system", "why_tests_cant": "all datetimes", "anchors": ["src/pynmeagps/nmeahelpers.py:leapsecond"]}
{"id": "C44", "title": "Week number and time of week ranges", "statement": "For every UTC time not before the system's epoch utc2wnotow returns floor((t - epoch) / week), reduced modulo the rollover when modwno, the leap second offset, and a time of week between 0 and 604800000 + 1000 * offset ms (a week or more only in the last leap seconds of the week) that is within about a millisecond below the exact one: the whole milliseconds, or one less on an exact millisecond, in the first 136 years of a system, and exact for whole seconds and for whole milliseconds in the years where the binary64 seconds resolve them.", "quantifier": "every datetime and system", "why_tests_cant": "all datetimes", "anchors": ["src/pynmeagps/nmeahelpers.py:utc2wnotow"]}
{"id": "C45", "title": "UTC to GNSS week and back", "statement": "wnotow2utc(*utc2wnotow(t, modwno=False), modwno=False) = t for every UTC time from the epoch on that is a whole second (or a whole millisecond in the years of C44), outside the last leap seconds of the week; other whole milliseconds can come back one millisecond early, and times in the last leap seconds of a week come back exactly one week early.", "quantifier": "every datetime and system", "why_tests_cant": "all datetimes", "anchors": ["src/pynmeagps/nmeahelpers.py:utc2wnotow", "src/pynmeagps/nmeahelpers.py:wnotow2utc"]}
{"id": "C46", "title": "Automatic rollover", "statement": "With autoroll wnotow2utc terminates and returns the first of the instants one rollover period apart that is later than now minus one period; it is not later than now when the first candidate is not. Only OverflowError (result outside years 1 to 9999) can escape. Without autoroll it returns the instant of the given week and time of week minus the leap seconds.", "quantifier": "every week number, time of week, system, clock value", "why_tests_cant": "unbounded loop", "anchors": ["src/pynmeagps/nmeahelpers.py:wnotow2utc"]}
{"id": "C47", "title": "Format of generated coordinates", "statement": "ddd2dmm(deg) of every finite |deg| < 100 (latitude) or < 1000 (longitude) is fixed-width ddmm.mmmmm (dddmm.mmmmm), 7 decimals in high precision mode, within half a unit of the last decimal (plus 1e-12) of |deg|, with minutes at most 60 (they can be printed as 60.00000).", "quantifier": "every float", "why_tests_cant": "all floats", "anchors": ["src/pynmeagps/nmeahelpers.py:ddd2dmm"]}
{"id": "C48", "title": "Coordinate round trip accuracy", "statement": "dmm2ddd(ddd2dmm(x)) differs from |x| by at most half a unit in the last minute decimal plus 1e-10 degrees, for every latitude |x| < 100 and longitude |x| < 1000, in both precisions.", "quantifier": "every float in [-180, 180]", "why_tests_cant": "all floats", "anchors": ["src/pynmeagps/nmeahelpers.py:ddd2dmm", "src/pynmeagps/nmeahelpers.py:dmm2ddd"]}
{"id": "C49", "title": "dmm2ddd is total and unsigned", "statement": "dmm2ddd never raises on a string; it returns '' when there is no '.' at index >= 4 or a part is not a number, and otherwise the number of degrees: for a text of digits within 1e-10 of degrees + minutes/60 and not negative. (A sign inside the minutes gives a negative result.)", "quantifier": "every string", "why_tests_cant": "all strings", "anchors": ["src/pynmeagps/nmeahelpers.py:dmm2ddd"]}
{"id": "C50", "title": "Integer fields round trip", "statement": "str2val(val2str(n, IN), IN) = n for every integer up to Python's 4300 digit limit.", "quantifier": "every integer", "why_tests_cant": "all integers", "anchors": ["src/pynmeagps/nmeamessage.py:NMEAMessage.str2val", "src/pynmeagps/nmeamessage.py:NMEAMessage.val2str"]}
{"id": "C51", "title": "Decimal fields round trip", "statement": "str2val(val2str(x, DE), DE) = x for every float x (all of binary64, infinities, signed zeros and nan included), and two different floats never print the same.", "quantifier": "every binary64 value", "why_tests_cant": "2^64 values", "anchors": ["src/pynmeagps/nmeamessage.py:NMEAMessage.str2val", "src/pynmeagps/nmeamessage.py:NMEAMessage.val2str"]}
{"id": "C52", "title": "Text fields round trip", "statement": "str2val(val2str(s, t), t) = s for text, character, hexadecimal, direction and status types and every string s.", "quantifier": "every string, each of the six types", "why_tests_cant": "all strings", "anchors": ["src/pynmeagps/nmeamessage.py:NMEAMessage.str2val", "src/pynmeagps/nmeamessage.py:NMEAMessage.val2str"]}
{"id": "C53", "title": "Every declared type is supported", "statement": "Every attribute type used in the built-in definitions, except in the placeholder FOO, is handled by val2str and nomval in every mode; and by str2val except DTL, so sentences whose definition uses DTL can be generated but never parsed.", "quantifier": "every definition in every built-in table", "why_tests_cant": "needs a join of all tables with three functions", "anchors": ["src/pynmeagps/nmeamessage.py:NMEAMessage.str2val", "src/pynmeagps/nmeamessage.py:NMEAMessage.val2str", "src/pynmeagps/nmeamessage.py:NMEAMessage.nomval", "src/pynmeagps/nmeatypes_get.py"]}
{"id": "C54", "title": "Well-formedness of the definition tables", "statement": "In every built-in definition attribute names are distinct after suffixing, none collides with a message property, internal or constructor parameter, every named repeat count refers to an earlier integer attribute, and no group is empty.", "quantifier": "every built-in definition", "why_tests_cant": "join of all tables", "anchors": ["src/pynmeagps/nmeatypes_get.py", "src/pynmeagps/nmeatypes_get_prop.py", "src/pynmeagps/nmeatypes_set_prop.py", "src/pynmeagps/nmeatypes_poll.py", "src/pynmeagps/nmeatypes_poll_prop.py"]}
{"id": "C55", "title": "Definitions are reachable", "statement": "Every definition in the GET/SET/POLL tables can be selected by some talker/msgID/mode/payload, for parsing and for construction, except: 66 proprietary definitions misplaced in the standard POLL table, TNLGGKx and QTMCFGGEOFENCE_DIS (GET), which no sentence selects, and FOO, QTMACK, QTMNAK and QTMSN_ALT, which no keywords build.", "quantifier": "every definition of every table", "why_tests_cant": "join of tables and selection logic", "anchors": ["src/pynmeagps/nmeamessage.py:NMEAMessage._get_dict"]}
{"id": "C56", "title": "Group size from keywords", "statement": "groupsize(**kw) is the largest number following the first '_' in the keyword names (0 if none); ValueError if the text after the first '_' of some name is not an integer.", "quantifier": "every keyword set", "why_tests_cant": "all keyword sets", "anchors": ["src/pynmeagps/nmeahelpers.py:groupsize"]}
{"id": "C57", "title": "repr() reconstructs the message", "statement": "repr(msg) is the text of a constructor call that Python reads, in exactly one way, as the talker, msgID, mode and payload of msg, whatever characters the payload contains, provided talker and msgID contain no quote, backslash, line end, NUL or surrogate; and eval(repr(msg)) has the same talker, msgID, mode, payload, checksum, attributes, identity and serialized form as msg, for every parsed message of a built-in msgID whose definition is known and whose checksum is right. (The checksum of other messages, and settings that are not the default, are lost.)", "quantifier": "every message, every payload text", "why_tests_cant": "all messages", "anchors": ["src/pynmeagps/nmeamessage.py:NMEAMessage.__repr__"]}
{"id": "C58", "title": "UTF-8 transparency", "statement": "For every valid UTF-8 byte string the decoded text used by get_parts re-encodes to the same bytes, and ASCII sentences are decoded byte for byte.", "quantifier": "every byte string", "why_tests_cant": "all byte strings", "anchors": ["src/pynmeagps/nmeahelpers.py:get_parts", "src/pynmeagps/nmeamessage.py:NMEAMessage.serialize"]}
{"id": "C59", "title": "hex2str", "statement": "hex2str(n, pad) is the upper-case hexadecimal numeral of n, zero padded to pad characters for pad below 10 (with spaces from 10 on), and int(hex2str(n, pad), 16) = n for every pad.", "quantifier": "every integer and padding", "why_tests_cant": "all integers", "anchors": ["src/pynmeagps/nmeahelpers.py:hex2str"]}
{"id": "C60", "title": "msgdesc", "statement": "msgdesc gives the built-in description for each recognised id, standard ids taking precedence, and 'Unknown msgID ...' for every other string.", "quantifier": "every string", "why_tests_cant": "all strings", "anchors": ["src/pynmeagps/nmeahelpers.py:msgdesc"]}
{"id": "C61", "title": "Speed conversion", "statement": "knots2spd multiplies by the documented factor of the unit (0.5144447324, 1.68781084, 1.15078, 1.852001) to within 3e-16 relative, case-insensitively; a bool counts as 0 or 1, infinities and NaN stay, an int of 2**1024 or more raises OverflowError, a value which is not a number TypeError, and every other unit KeyError; for ASCII unit names (U+017F counts as 'S').", "quantifier": "every number and unit string", "why_tests_cant": "all inputs", "anchors": ["src/pynmeagps/nmeahelpers.py:knots2spd"]}
{"id": "C62", "title": "Spherical area, distance, planar distance", "statement": "Over real arithmetic: area equals the surface integral of the latitude/longitude rectangle (so it is non-negative, independent of the order of the corners, additive, 0 exactly on degenerate rectangles, 4 pi r^2 for the whole sphere, unchanged when both longitudes turn together, but not when only one does). haversine never raises and is the radius times the angle between the two points of the sphere: symmetric, between 0 and half a circumference, 0 exactly for coincident points, satisfying the triangle inequality, unchanged by a full turn of either longitude. planar never raises, is non-negative, 0 for coincident points, unchanged when both longitudes turn together, equal to haversine along a meridian and along the equator, and symmetric between points of equal or opposite latitude but not in general. (What rounding changes is stated in C78 and C79.)", "quantifier": "all real coordinates (idealised real arithmetic)", "why_tests_cant": "all reals", "anchors": ["src/pynmeagps/nmeahelpers.py:area", "src/pynmeagps/nmeahelpers.py:haversine", "src/pynmeagps/nmeahelpers.py:planar"]}
{"id": "C63", "title": "Bearing", "statement": "Over real arithmetic: bearing lies in [0, 360) and is the compass direction in which the second point is seen from the first (its vector's components towards local east and north are rho sin b and rho cos b, rho the sine of the angular distance); 0 due north and 180 due south along a meridian, 90/270 along the equator, 0 to the point itself; unchanged by a full turn of either longitude. (What rounding changes is stated in C79.)", "quantifier": "all real coordinates (idealised real arithmetic)", "why_tests_cant": "all reals", "anchors": ["src/pynmeagps/nmeahelpers.py:bearing"]}
{"id": "C64", "title": "Geodetic to ECEF", "statement": "Over real arithmetic, for every ellipsoid (a <> 0, f not 0 or 1): llh2ecef of height 0 lies on the ellipsoid, height moves the point by that distance along the outward unit normal there, and (off the axis, height above -a, a > 0, f > 1) the longitude is the polar angle of (x, y). f = 0 or a = 0 raises ZeroDivisionError. (What rounding changes is stated in C80.)", "quantifier": "all real coordinates and ellipsoids (idealised real arithmetic)", "why_tests_cant": "all reals", "anchors": ["src/pynmeagps/nmeahelpers.py:llh2ecef"]}
{"id": "C65", "title": "ECEF to geodetic", "statement": "Over real arithmetic, for every geodetic datum (6300 km <= a <= 6400 km, f >= 290): ecef2llh never raises; it returns the nominal (0, 0, -1e7) exactly for points within 100 km of the centre; elsewhere the latitude is in [-90, 90] on the point's side of the equator and the longitude is the polar angle of (x, y); reflection in the equator negates the latitude and changes nothing else; rotation about the axis changes neither latitude nor height; exact on the equator and on the axis; and converting llh2ecef output back (any latitude and longitude, any height above -200 km) returns the latitude within 2e-8 degrees, the height within 2 mm and, off the poles, exactly the longitude; and converting any point at least a - 150 km from the centre with ecef2llh and the result back with llh2ecef moves each coordinate by at most 2 mm + 5e-10 of its distance from the centre. (What rounding changes is stated in C81.)", "quantifier": "all real coordinates (idealised real arithmetic)", "why_tests_cant": "all reals", "anchors": ["src/pynmeagps/nmeahelpers.py:ecef2llh"]}
{"id": "C66", "title": "ISO 6709", "statement": "llh2iso6709 is sign+|lat| sign+|lon| sign+alt 'CRS' crs '/' for every position, where the numerals read back as the values; a negative altitude carries its own minus after the sign ('--5.0'); anything but numbers is a TypeError.", "quantifier": "every float triple", "why_tests_cant": "all floats", "anchors": ["src/pynmeagps/nmeahelpers.py:llh2iso6709"]}
{"id": "C67", "title": "Nominal construction", "statement": "For every built-in definition (except the placeholder FOO) and mode that can be selected, constructing the message without attribute keywords succeeds, fills each field with the nominal value of its type, and gets a correct checksum, whatever the clock.", "quantifier": "every built-in definition, every clock value", "why_tests_cant": "all definitions x all clocks", "anchors": ["src/pynmeagps/nmeamessage.py:NMEAMessage.nomval", "src/pynmeagps/nmeamessage.py:NMEAMessage._do_attributes"]}
{"id": "C68", "title": "Keyword values are placed in their field", "statement": "Constructing from keywords puts val2str(value) in the field of that (suffixed) name and the nominal value in every other field (NS/EW excepted: C16); keywords that name no field have no effect on a definition without indeterminate groups, except names of internal parameters (pindex, pdict, key, gindex, att, for some messages mode), which raise NMEATypeError.", "quantifier": "every definition, keyword set", "why_tests_cant": "all keyword sets", "anchors": ["src/pynmeagps/nmeamessage.py:NMEAMessage._set_attribute_single"]}
{"id": "C69", "title": "Degree/minute/second text", "statement": "For angles of magnitude below 1000, deg2dms/deg2dmm print a hemisphere suffix by sign and latitude/longitude, minutes below 60 and seconds (minutes) rounded to 5 (7) decimals and at most 60, within half a unit of the last decimal of |x|; dms2deg inverts them within rounding, except that seconds below 1e-4 (minutes below 1e-4) are printed with an exponent which dms2deg rejects with ValueError. Every other finite float gives a text of that same form (whole degrees, minutes below 60, seconds at most 60, the right hemisphere), or '' if it exceeds 2^1012; and neither function ever raises, whatever value it is given.", "quantifier": "every float, and every value of another type", "why_tests_cant": "all floats", "anchors": ["src/pynmeagps/nmeahelpers.py:deg2dms", "src/pynmeagps/nmeahelpers.py:deg2dmm", "src/pynmeagps/nmeahelpers.py:dms2deg"]}
{"id": "C70", "title": "parse() is a pure function", "statement": "parse() depends only on its arguments: the clock, previous calls and the reader's state have no influence, and bytes and str input of the same text give the same result.", "quantifier": "every input and history", "why_tests_cant": "all histories", "anchors": ["src/pynmeagps/nmeareader.py:NMEAReader.parse"]}
{"id": "C71", "title": "What a field is read as", "statement": "parse() reads a field by its attribute type: text types keep the text; an integer field (optional sign, up to 4300 digits) becomes that int and a decimal field the float nearest to the number written; hhmmss[.s…] becomes that time; ddmmyy (DT) and mmddyy (DM) become that date in 1969-2068; (d)ddmm.m… becomes degrees to within 1e-10, negative in lat or lon if the hemisphere field after it is S or W; an empty field of any type is ''. Every attribute is '' or has the Python type of its field type, and an integer or decimal field with any other ASCII character makes parse() raise.", "quantifier": "every field text, attribute type, definition and sentence", "why_tests_cant": "all field texts", "anchors": ["src/pynmeagps/nmeamessage.py:NMEAMessage.str2val", "src/pynmeagps/nmeahelpers.py:date2utc", "src/pynmeagps/nmeahelpers.py:time2utc", "src/pynmeagps/nmeahelpers.py:dmm2ddd"]}
{"id": "C72", "title": "How a keyword value is written", "statement": "A message built from keywords writes each supplied value by the attribute type of its field: text as it is; an int as its decimal numeral; a time, or the text hh:mm:ss[.s…], as hhmmss[.s…]; a date, or the text yyyy-mm-dd or yyyymmdd, as ddmmyy (DT), mmddyy (DM) or ddmmyyyy (DTL); degrees as (d)ddmm.mmmmm[mm] with an error of at most half a unit of the last decimal (and 1e-12 degrees). A position given as text is written as an empty field.", "quantifier": "every keyword value, attribute type and definition", "why_tests_cant": "all values", "anchors": ["src/pynmeagps/nmeamessage.py:NMEAMessage.val2str", "src/pynmeagps/nmeahelpers.py:date2str", "src/pynmeagps/nmeahelpers.py:time2str", "src/pynmeagps/nmeahelpers.py:ddd2dmm"]}
{"id": "C73", "title": "A chunked connection is read like its decoded bytes", "statement": "NMEAReader over a socket with chunked encoding (with or without gzip/compress/deflate) delivers the same items, errors and reports as over a plain socket carrying the concatenated decompressed chunk payloads and, if lines end CR LF, as over a file holding them: chunk boundaries inside sentences and the cutting into recv segments (cuts of the two kinds named in C38 apart) do not matter.", "quantifier": "every list of chunks, every allowed segmentation of the encoded stream, every decompressor, every reader configuration", "why_tests_cant": "sentence, chunk and segment boundaries can fall in any combination", "anchors": ["src/pynmeagps/socketwrapper.py:SocketWrapper._recv", "src/pynmeagps/socketwrapper.py:SocketWrapper.dechunk", "src/pynmeagps/nmeareader.py:NMEAReader.read"]}
{"id": "C74", "title": "A connection failure between lines loses nothing", "statement": "If recv() fails (timeout, OSError, or b'') after the data received so far ended with a complete CR LF line, iterating the reader ends exactly as if the connection had been closed there, the wrapper's buffer is empty, and iterating again delivers what follows as a new connection would. (A failure inside a line loses that line, reported as NMEAStreamError.)", "quantifier": "every segmentation, every data up to the failure, every continuation, every reader configuration", "why_tests_cant": "the failure can occur after any prefix of any stream", "anchors": ["src/pynmeagps/socketwrapper.py:SocketWrapper.read", "src/pynmeagps/socketwrapper.py:SocketWrapper.readline", "src/pynmeagps/nmeareader.py:NMEAReader.__next__"]}
{"id": "C75", "title": "What is written is what is read", "statement": "For every sequence of messages, built from field lists or from keyword values (number fields given numbers) under the reader's mode and definitions, with a talker the reader recognises and no '*', comma or line feed inside a field: a reader of the concatenation of their serialize() output - from a file, or from a plain connection cut into segments in any way - delivers exactly these messages, in order, with no error, and then ends; for messages from field lists every attribute is the same. And relaying is lossless: the messages a reader delivered from any stream whatsoever, serialized and written to another stream, are delivered from it again unchanged and in the same order (PSSNSNC excepted).", "quantifier": "all sequences of messages, all streams, all segmentations", "why_tests_cant": "unbounded sequences of arbitrary messages and arbitrary cuts of the byte stream", "anchors": ["src/pynmeagps/nmeamessage.py:NMEAMessage.serialize", "src/pynmeagps/nmeareader.py:NMEAReader.read", "src/pynmeagps/nmeareader.py:NMEAReader.parse", "src/pynmeagps/socketwrapper.py:SocketWrapper.readline"]}
{"id": "C76", "title": "Reading in several goes", "statement": "A loop over a reader can be left after any number of items and taken up again later on the same stream object, with nothing lost, repeated or reordered and the same errors reported, whatever the stream object. An application that catches every exception and calls read() again sees every happening in the stream exactly once and in order: with ERR_LOG it catches what the error handler raises; with ERR_RAISE it gets the items that ERR_LOG or ERR_IGNORE would deliver and catches the exceptions that ERR_LOG would report, from a file and from a plain connection cut in any way. A second NMEAReader opened on the bare socket does not get what the first had buffered.", "quantifier": "all streams, all stopping points, all segmentations, all reader settings", "why_tests_cant": "every stopping point of every stream, and unbounded streams with arbitrary errors", "anchors": ["src/pynmeagps/nmeareader.py:NMEAReader.read", "src/pynmeagps/nmeareader.py:NMEAReader.__next__", "src/pynmeagps/nmeareader.py:NMEAReader._do_error", "src/pynmeagps/socketwrapper.py:SocketWrapper.read"]}
{"id": "C77", "title": "Exceptions of the stream and of the error handler", "statement": "Whatever the stream object, an exception that comes out of read() was raised by the stream itself, or by parsing a line (and is not a protocol error), or is the protocol error under ERR_RAISE, or was raised by the error handler, whose call is then the last report. A file-like object that delivers some bytes and then raises (a serial port that is unplugged) yields all complete lines as a file would, and then its exception, unchanged and under every error policy; if the exception is EOFError the loop just ends. An impossible chunk size makes OverflowError come out of the loop with the buffer untouched.", "quantifier": "every stream object, handler, configuration, byte stream and point of failure", "why_tests_cant": "the failure can occur at any byte of any stream, with any exception", "anchors": ["src/pynmeagps/nmeareader.py:NMEAReader.read", "src/pynmeagps/nmeareader.py:NMEAReader._do_error", "src/pynmeagps/socketwrapper.py:SocketWrapper._recv"]}
{"id": "C78", "title": "Great-circle distance in floating point", "statement": "As CPython computes it, in IEEE binary64: haversine returns a finite non-negative number within 1.5e-7 of the radius of the great-circle distance of the two points, or raises ValueError; the latter only if the points are within 1.5e-7 rad (1 m on Earth) of antipodal (and it does so for some, e.g. 45N 0E and 45S 180E). With the default radius and points at least 50 m apart and 50 m from antipodal it never raises and is within 2 cm. The distance of a point from itself is exactly 0.", "quantifier": "all finite binary64 latitudes in [-90, 90] and longitudes in [-180, 180], every C library accurate to less than one unit in the last place, every radius from 1e-6 to 1e12", "why_tests_cant": "about 2^250 argument combinations and every conforming C library; the rounding errors near coincident and antipodal points are where the formula is ill-conditioned", "anchors": ["src/pynmeagps/nmeahelpers.py:haversine"]}
{"id": "C79", "title": "Bearing, planar distance and area in floating point", "statement": "As CPython computes them, in IEEE binary64: bearing never raises, returns a number in [0, 360), exactly 0 from a point to itself, and is the compass direction of the second point from the first up to whole turns and an error of 1e-12/rho + 2e-13 degrees, rho the sine of the angular distance. planar never raises and is within 2e-14 of the radius of the exact value of its formula, exactly 0 from a point to itself. For a radius between 1e-6 and 1e12 area never raises, is non-negative, within 3e-14 of the radius squared of the area of the latitude/longitude rectangle, and exactly symmetric in the two corners. A finite radius too large to be squared makes area() raise OverflowError; an infinite area is never returned for it.", "quantifier": "all finite binary64 latitudes in [-90, 90] and longitudes in [-180, 180], every radius from 1e-6 to 1e12, every C library accurate to less than one unit in the last place", "why_tests_cant": "about 2^250 argument combinations and every conforming C library", "anchors": ["src/pynmeagps/nmeahelpers.py:bearing", "src/pynmeagps/nmeahelpers.py:planar", "src/pynmeagps/nmeahelpers.py:area"]}
{"id": "C80", "title": "Geodetic to ECEF in floating point", "statement": "As CPython computes it, in IEEE binary64: llh2ecef never raises, and each coordinate of its result is within 2.5e-15 (6430 km + |height|) of the point at that height along the outward normal of the point of the ellipsoid with that geodetic latitude and longitude; for WGS84 and up to 20 km of height, within 2e-8 m. A semi-major axis too large to be squared is an OverflowError.", "quantifier": "all finite binary64 latitudes in [-90, 90] and longitudes in [-180, 180], every C library accurate to less than one unit in the last place, every height up to 1e12 m, every datum with 6300 km <= a <= 6400 km and inverse flattening at least 290", "why_tests_cant": "about 2^300 argument combinations and every conforming C library", "anchors": ["src/pynmeagps/nmeahelpers.py:llh2ecef"]}
{"id": "C81", "title": "ECEF to geodetic in floating point", "statement": "As CPython computes it, in IEEE binary64: up to 2e10 m from the centre ecef2llh never raises and returns three finite numbers: the nominal (0, 0, -1e7) below 99,999.999 m, and from 100,000.001 m a height above -6400 km and the longitude of (x, y) within 1e-13 degrees. Every position from a - 150 km to 1e10 m has geodetic coordinates and ecef2llh returns them within 1.8e-8 degrees of latitude and 1.5 mm of height; if each coordinate passed is off by up to d <= 20 cm, within 1.8e-8 + 800 d/R degrees and 1.5 mm + 5 d (R the distance from the centre), the longitude within 1e-13 + 413 d/rho degrees (rho the distance from the axis, at least 4 d). Converting with llh2ecef and back returns the latitude within 2e-8 degrees, the height within 2 mm and the longitude within 1e-13 + 2e-12/cos(latitude) degrees.", "quantifier": "all finite binary64 coordinates, every C library accurate to less than one unit in the last place, every datum with 6300 km <= a <= 6400 km and inverse flattening at least 290 (at most 1000 for the accuracy claims)", "why_tests_cant": "about 2^300 argument combinations and every conforming C library", "anchors": ["src/pynmeagps/nmeahelpers.py:ecef2llh", "src/pynmeagps/nmeahelpers.py:llh2ecef"]}
{"id": "C82", "title": "Error handlers that remember", "statement": "With quitonerror=ERR_LOG any error handler - with whatever state of its own - is called once for each protocol error, in stream order, each time in the state its previous call left, until it raises; what it raises ends the loop with everything before that error delivered. So a handler that gives up after k errors lets the loop deliver exactly the sentences before error k+1 (all of them if there are no more than k errors). Under every other policy it is not called and its state does not change. Every item is parse() of its line.", "quantifier": "every handler (state machine over the errors), stream, segmentation of a socket stream and configuration", "why_tests_cant": "all handlers and all histories of errors", "anchors": ["src/pynmeagps/nmeareader.py:NMEAReader.read", "src/pynmeagps/nmeareader.py:NMEAReader._do_error"]}
{"id": "C83", "title": "Values survive the round trip", "statement": "If a sentence is generated from keyword values, serialized and parsed, every value comes back in the attribute of the same name: text in a text field unchanged, an integer in an integer field exactly, a float in a decimal field bit for bit, an integer in a decimal field as the nearest float, numeric text as the number it writes, a time to the hundredth of a second (later digits dropped), a date of 1969-2068 exactly, in repeating groups too. lat and lon (float or int degrees) come back with their sign and within half a unit of the last decimal of the minutes plus 1e-10 degrees (5 decimals, 7 in high precision mode), whatever is supplied for the hemisphere; a position under any other name comes back as its magnitude.", "quantifier": "every definition (shipped or user defined), talker, message, set of keywords, clock and precision mode whose generated text does not break the framing and names the same definition", "why_tests_cant": "all values of all fields of 500 definitions", "anchors": ["src/pynmeagps/nmeamessage.py:NMEAMessage.__init__", "src/pynmeagps/nmeamessage.py:NMEAMessage.serialize", "src/pynmeagps/nmeamessage.py:NMEAMessage.val2str", "src/pynmeagps/nmeamessage.py:NMEAMessage.str2val", "src/pynmeagps/nmeareader.py:NMEAReader.parse"]}
{"id": "C84", "title": "Modular week numbers", "statement": "wnotow2utc(*utc2wnotow(t), autoroll=True), the week number reduced modulo the rollover, is t for every UTC time t not later than now and less than one rollover period before it (t a whole second, or a whole millisecond in the years of C44, outside the last leap seconds of a week), with the leap seconds passed on; with the leap seconds taken from the table if now is later than t by them - just after t the result can be a whole rollover period early. Passing the leap seconds, the result always differs from t by whole rollover periods and is the latest such time not after now.", "quantifier": "every datetime, system and clock value", "why_tests_cant": "all datetimes and clocks, unbounded loop", "anchors": ["src/pynmeagps/nmeahelpers.py:utc2wnotow", "src/pynmeagps/nmeahelpers.py:wnotow2utc"]}
{"id": "C85", "title": "All socket methods together", "statement": "Whatever methods of a plain (not chunked) SocketWrapper are called in whatever order - read with any count, negative ones included, readline, in_waiting, buffer, write - the bytes handed out followed by the buffer are the bytes received, in order; in_waiting() is the number of bytes received and not yet handed out and buffer is those bytes. For any encoding, read(n) of no more than in_waiting() bytes returns exactly n bytes without touching the network, a larger one receives at least once, and a negative n returns all but the last -n buffered bytes.", "quantifier": "every history of calls and every behaviour of recv() and send()", "why_tests_cant": "all call histories and network schedules", "anchors": ["src/pynmeagps/socketwrapper.py:SocketWrapper.read", "src/pynmeagps/socketwrapper.py:SocketWrapper.in_waiting", "src/pynmeagps/socketwrapper.py:SocketWrapper.buffer", "src/pynmeagps/socketwrapper.py:SocketWrapper.write"]}
{"id": "C86", "title": "Decode tables", "statement": "The code attributes of a parsed sentence (GGA quality; GLL, RMC and GNS posMode; GBS, GRS and GSA systemId; GBS and GRS signalId) can be looked up as they are in the decode tables QUALITY, POSMODE, SYSTEMID and SIGNALID: the attribute is the very key the field spells (a numeral, zeros in front allowed, for QUALITY; the text itself for the others), and the lookup gives that key's name and no other. No table has a key twice. Every signal belongs to a system of SYSTEMID by identifier and, but for letter case, by name, and every system is a constellation of GNSSLIST. The FMI status table has one bit per key and one name per bit, so the flags raised determine and are determined by the meaningful bits; the status attribute itself is a text and is no key of that table.", "quantifier": "every sentence of these types, in any framing and with any user definitions, and every status word", "why_tests_cant": "all field texts and all status words", "anchors": ["src/pynmeagps/nmeatypes_decodes.py:QUALITY", "src/pynmeagps/nmeatypes_decodes.py:POSMODE", "src/pynmeagps/nmeatypes_decodes.py:SYSTEMID", "src/pynmeagps/nmeatypes_decodes.py:SIGNALID", "src/pynmeagps/nmeatypes_decodes.py:FMI_STATUS", "src/pynmeagps/nmeatypes_get.py:NMEA_PAYLOADS_GET"]}
{"id": "C87", "title": "The socket wrapper asks the network only for what it needs, so complete sentences are delivered at once", "statement": "On a plain (not chunked) connection no method of SocketWrapper calls recv() for data it does not need: after any sequence of calls, either the last recv() brought data part of which has been handed out, or fewer bytes than the largest read are left, so the buffer never holds more than the larger of one recv() and one read() less a byte. NMEAReader on it: when read() returns a sentence ending CR LF, the sentence was not complete before the last recv(); and if what has arrived suffices for a CR LF sentence, read() returns it without calling recv(), whatever the network does later (for every encoding). Not so for a sentence ended by LF alone: it waits for another recv().", "quantifier": "every wrapper state, every sequence of method calls, every split of the data into recv() results and every later behaviour of the network", "why_tests_cant": "whether a reader blocks although a whole sentence is there depends on where the network cut the data; a test fixes a few cuts", "anchors": ["src/pynmeagps/socketwrapper.py: SocketWrapper._recv, read, readline, in_waiting", "src/pynmeagps/nmeareader.py: NMEAReader.read, _read_line"]}
{"id": "C88", "title": "Serial ports with a timeout", "statement": "On a stream whose read(1) and readline() give up after a timeout (a serial port), an application that calls read() again after (None, None) and after exceptions sees and reports, burst by burst between the timeouts, exactly what it would for a file holding the bytes of the burst. Timeouts between lines therefore make no difference; a timeout inside a sentence loses that sentence and no other and is reported as NMEAStreamError, except when it falls after the first or second byte, which is silent. A single for loop ends at the first timeout between lines and leaves everything later to the next loop.", "quantifier": "every sequence of bytes and timeouts, every configuration, error policy and handler", "why_tests_cant": "a timeout can fall at every byte of every stream", "anchors": ["src/pynmeagps/nmeareader.py: NMEAReader.read, _read_bytes, _read_line, __next__"]}
{"id": "C89", "title": "Streams that do not return bytes", "statement": "Whatever the stream's read() and readline() return (bytes, bytearray, str or None), an item of the reader is a line of bytes beginning \"$\" and a recognised byte, and its message is what parse() makes of it. On a file opened in text mode the loop over the reader ends normally with no items and no reports, whatever the file contains and under every configuration; on a stream of bytearrays it ends with TypeError at the first \"$\" that is followed by anything; a read(1) that returns None (non-blocking stream without data) is a TypeError. On a stream of bytes nothing of this matters.", "quantifier": "every stream object, every content and every configuration", "why_tests_cant": "ranges over all return values of all stream objects", "anchors": ["src/pynmeagps/nmeareader.py: NMEAReader.read, _read_bytes, _read_line, __next__", "src/pynmeagps/nmeatypes_core.py: NMEA_HDR"]}
{"id": "C90", "title": "Streams put together", "statement": "Reading the concatenation of several files, each empty or ending in a line feed, gives exactly the items, the reports and the handler calls of the first file, then those of the second, and so on: no state is carried from one line to the next. Bytes other than \"$\" inserted between lines have no effect at all. Where the first file lacks its final line end its last sentence and the next file's first can both be lost.", "quantifier": "every number of files of every content and every configuration", "why_tests_cant": "ranges over all contents and all places where a log can be cut and joined", "anchors": ["src/pynmeagps/nmeareader.py: NMEAReader.read, __next__, _read_line, _read_bytes"]}
{"id": "C91", "title": "Relaxing validation only adds messages", "statement": "Dropping VALCKSUM or VALMSGID (or both) changes nothing about a sentence that parse() handles without NMEAParseError: the same message, the same None, the same other exception. What is refused under weaker validation is refused under stronger. Bits of validate other than those two do not matter. An application that carries on after exceptions gets from a stream every item it got before, in the same order, and possibly more, over files and sockets. Exceptions: user definitions that repeat a group by the private name \"_validate\", and loops that an uncaught IndexError ends.", "quantifier": "every message, stream, pair of validate values, mode and user-defined dictionary", "why_tests_cant": "compares the behaviour under two settings on all inputs", "anchors": ["src/pynmeagps/nmeareader.py: NMEAReader.parse, read", "src/pynmeagps/nmeamessage.py: NMEAMessage.__init__, _get_dict, _set_attribute_group"]}
{"id": "C92", "title": "Message objects and the lists they share", "statement": "Over any history of parsing, building, copying, assigning and list editing: a message from parse(), one built from keywords and a deep copy have a payload list of their own, so such a message stays exactly as it was unless the application edits the list it got from that message's .payload (or deletes attributes). No edit of any list changes a message's talker, msgID, mode, checksum, attributes, identity or str(). A message built with payload=lst, and a shallow copy, refer to the same list object and show its current contents. The constructor leaves a list it is given alone, whether it succeeds or raises, except that for PSSNSNC it strips \"[\" and \"]\" from fields of the caller's list. Assignment is refused on every object, copies included.", "quantifier": "every program: every finite history of these operations on any number of objects and lists", "why_tests_cant": "aliasing shows only over histories; all interleavings of operations on all objects", "anchors": ["src/pynmeagps/nmeamessage.py: NMEAMessage.__init__, _do_attributes, _set_attribute_single, payload, __setattr__, serialize", "src/pynmeagps/nmeahelpers.py: get_parts", "src/pynmeagps/nmeareader.py: NMEAReader.parse"]}
{"id": "C93", "title": "Several threads reading one stream", "statement": "With a lock around read(), for every order of turns the threads together get, in order, exactly the items, exceptions and reports one thread would have got, each item going to exactly one thread; once one of them has seen the end, all of it. Without a lock, under every schedule of the stream calls and whatever the settings of the threads, every item is \"$\", a recognised byte and one whole line of the stream, these lines are disjoint and in the order of delivery, and the item's message is what parse() makes of it; but sentences can be lost, and with VALNONE a message can be put together from two sentences.", "quantifier": "every schedule of any number of threads, every stream content and configuration", "why_tests_cant": "ranges over all interleavings", "anchors": ["src/pynmeagps/nmeareader.py: NMEAReader.read, _read_bytes, _read_line, __next__"]}
{"id": "C94", "title": "Damage to a stream is local", "statement": "If some bytes of a file of sentences are replaced by others, lost or inserted, anywhere, then every sentence that ends before the damage and every sentence that begins after the first line end behind it is still delivered, in order and with the same message. At most one sentence more than the line ends overwritten is lost (so one flipped byte costs one sentence, or two if it ended a line), at most one item more than the line ends written is added, and with checksum validation a flipped content byte never makes the reader deliver a message for the damaged sentence.", "quantifier": "every file of sentences, every place and every content of the damage, every configuration", "why_tests_cant": "ranges over all places and kinds of damage in all files", "anchors": ["src/pynmeagps/nmeareader.py: NMEAReader.read, __next__, _read_line, _read_bytes, parse", "src/pynmeagps/nmeahelpers.py: calc_checksum"]}
{"id": "C95", "title": "Order of keyword arguments and definitions", "statement": "The order in which keyword arguments are given to NMEAMessage() has no effect whatever, and neither has the order of the entries of the user dictionary on parse(). If payload is given, all other keywords are ignored (except names that collide with parameters of internal helpers). With a keyword named pindex, pdict, key, gindex or att nothing is read from the keywords or the payload: for an ordinary id whose definition has attributes construction gives NMEATypeError, and a message that can be built has its payload as given and at most numbered attributes.", "quantifier": "every set of keyword arguments in every order, every payload, every user dictionary", "why_tests_cant": "ranges over all keyword sets and their permutations", "anchors": ["src/pynmeagps/nmeamessage.py: NMEAMessage.__init__, _do_attributes, _get_dict, _set_attribute_single, _set_attribute_group", "src/pynmeagps/nmeahelpers.py: groupsize"]}
{"id": "C96", "title": "What the checksum detects", "statement": "If the content of a good sentence arrives changed, under the same checksum text, parse() with VALCKSUM raises NMEAParseError exactly if the new content contains '*' or the XOR of its characters differs; otherwise the outcome is the same as without checksum validation. So an odd number of flipped bits, any change confined to eight consecutive transmitted bits (least or most significant bit first), a lost or added character other than NUL, and two replaced characters whose changes differ are always refused, while characters in another order never are. A checksum digit replaced by any other ASCII character is refused, except by itself in the other case, which is never noticed.", "quantifier": "every sentence, every kind and place of damage, every mode, validate value and user definition", "why_tests_cant": "the damaged sentences are unboundedly many; the guarantee is an algebraic property of the checksum and of the framing together", "anchors": ["src/pynmeagps/nmeahelpers.py: calc_checksum, get_parts", "src/pynmeagps/nmeareader.py: NMEAReader.parse"]}
{"id": "C97", "title": "Exceptions of the constructor", "statement": "NMEAMessage(...) built from keyword arguments raises nothing but NMEAMessageError and NMEATypeError, whatever the talker, id, mode, flags, definitions, keyword names and (str, int, float, bool, None, date, time, datetime) values. NMEAMessageError is raised exactly if the mode is not GET, SET or POLL; or VALMSGID is set and the talker, the id or the definition is unknown; or a proprietary prefix is used without msgId (given keywords other than the message's own attributes, and texts for msgId and msgtype). Built from a payload it can besides raise IndexError, only for a sentence that lacks the field that selects its definition, and ZeroDivisionError, only for a user definition with an empty group; other keywords beside a payload change nothing, or cause an NMEATypeError.", "quantifier": "every combination of constructor arguments", "why_tests_cant": "the combinations of ids, keywords, value types and user definitions are unbounded", "anchors": ["src/pynmeagps/nmeamessage.py: NMEAMessage.__init__, _do_attributes, _set_attribute, _set_attribute_group, _set_attribute_single, _get_dict, _get_dict_prop, val2str, nomval"]}
{"id": "C98", "title": "A sentence read and written again", "statement": "If a message is parsed and a new message is constructed from its attributes as keyword arguments, then the new message has the same attributes with the same values, and each field is written in the library's own notation: text and empty fields unchanged, integers and decimals without superfluous signs and zeros, times with two decimals, positions with 5 (or 7) decimals of minutes filled up with zeros. If the fields already were in that notation, serialize() gives the original sentence, byte for byte. This holds whenever the number of fields matches the definition, every field is of these forms, and a hemisphere field says what the sign of the position says; it holds for every standard message id (also with repeating groups, whose number is recovered from the keyword names), for the proprietary ids - also those whose definition is chosen by msgId or among several by the fields present - other than STMDRSENMSG, QTMCFGPPS and QTMCFGGEOFENCE in SET mode and the three with underscored names in a group of unstated number, for sentences decoded by a definition of that id (not a Quectel OK or ERROR, nor the older QTMSN), for user-defined ids, and for any id if the keywords select the same definition.", "quantifier": "every sentence, definition, number of repeats, field text of the stated forms, clock, precision mode, validation flags and user definitions", "why_tests_cant": "the texts and values are unbounded, and the claim needs that the shortest decimal text of every binary float read from at most 15 digits is the text it came from", "anchors": ["src/pynmeagps/nmeamessage.py: NMEAMessage.__init__, _set_attribute, _set_attribute_group, _set_attribute_single, str2val, val2str, serialize", "src/pynmeagps/nmeahelpers.py: dmm2ddd, ddd2dmm, time2str, time2utc, date2str, date2utc"]}
{"id": "C99", "title": "The poller application: two threads, two queues, a stop event", "statement": "In the application pattern of the example programs (an I/O thread that calls read(), queues what it delivers and writes queued messages to the port; a thread that displays; a main program that queues messages and sets a stop event), whatever the order in which the threads run: every message that read() delivers is displayed exactly once, in order, or is still queued or in a thread's hands; what is given to the port's write() is the encoding of the queued messages in the order of queueing, each at most once; a queue is never found empty by get(), task_done() is never called too often, and everything reported as gone wrong is an exception of read(), serialize() or write(); as long as the stop event is not set every queued message is displayed within five turns of its thread, and once read() has given something back the messages queued so far are written within four turns each; after the stop event at most one more message is read and displayed and the threads end. With a log file as port, the messages displayed are the first ones of those that a simple loop over the file gives. It does not hold that nothing is lost at the stop event, that a failed write is counted as a finished task, or that messages are sent while the port delivers only noise.", "quantifier": "every schedule of the threads' operations, every port, every reader setting, every sequence of queued messages and moment of the stop event", "why_tests_cant": "the interleavings of the threads are unbounded and not under a test's control", "anchors": ["examples/nmeapoller.py: io_data, process_data, main", "examples/quecteldemo.py: io_data, process_data", "src/pynmeagps/nmeareader.py: NMEAReader.read, datastream", "src/pynmeagps/nmeamessage.py: NMEAMessage.serialize, __str__"]}
{"id": "C100", "title": "To another datum and back", "statement": "Every datum listed in examples/datums.py can be given to llh2ecef and ecef2llh (their accuracy claims apply to its ellipsoid) and its semi-axis divided by 1000 to haversine and area. Converting ECEF coordinates with ecef2llh and back with llh2ecef on any ellipsoid in use for the Earth never fails and returns every coordinate within 6e-10 of the distance from the Earth's centre (4 mm on its surface), anywhere from 150 km below the equator's radius to 1e10 m out; the conversion of examples/utilities.py to any listed datum and back, with the datum's shift subtracted and added, returns within 6.2e-10 of that distance.", "quantifier": "all finite binary64 coordinates in the stated range of distances, all ellipsoids with semi-axis 6300 to 6400 km and inverse flattening 290 to 1000, all 124 listed datums, all C libraries accurate to less than one unit in the last place", "why_tests_cant": "rounding errors vary irregularly with the point; a test checks single points, not that the error stays bounded for all of them, nor near the poles and the axis where the computed latitude may pass 90 degrees", "anchors": ["examples/datums.py DATUMS", "examples/utilities.py:74-106", "src/pynmeagps/nmeahelpers.py ecef2llh, llh2ecef, haversine"]}
{"id": "C101", "title": "A log becomes a track", "statement": "The GPX converter of the examples writes, for every log file in which each line delivered by the reader is parsed and each GGA sentence has a fix, one track point for each GGA sentence, in order, carrying that sentence's latitude, longitude, altitude, HDOP, kind of fix and time of day with the computer's date, between a fixed start and end; the file is a well-formed XML document. The first line that is not parsed (no '*') and the first GGA sentence without a time or with fewer than nine fields end the program with AttributeError: the points up to there are in the file, the closing tags are not. In general the file is well-formed exactly if the program ended without an exception.", "quantifier": "all log file contents, all clock readings, all sentences with message id GGA of any talker, any length of log", "why_tests_cant": "the log is arbitrary bytes; every value that can reach the XML text (all floats included) must be free of markup, and every position of a bad sentence among good ones matters", "anchors": ["examples/gpxtracker.py:NMEATracker.reader", "examples/gpxtracker.py:NMEATracker.write_gpx_hdr", "examples/gpxtracker.py:NMEATracker.write_gpx_trkpnt", "examples/gpxtracker.py:NMEATracker.write_gpx_tlr"]}
{"id": "C102", "title": "Web server example: the GPS page shows the latest values", "statement": "examples/webserver/nmeaserver.py keeps twelve named values and serves them as JSON at /gps. As long as read() gives messages or one of the four NMEA errors and every RMC, GGA and GSA sentence is long enough (at least 9, 9 and 17 fields), the reader thread lives and, once it has dealt with the messages, every entry holds the value of the last message that sets it (date and time as text), or its initial value. At any moment in between the page has the same twelve entries, each as of one common point of the message sequence or as of the next message. The page can always be produced, and unless an entry is infinite or NaN it is a JSON object whose strings are the entries' texts, whose integers are their decimal numerals and whose floats read back as the same float. A sentence that stops short ends the thread with AttributeError and freezes the page; the NMEA errors that the loop catches are never raised by its reader.", "quantifier": "for every sequence of results of read() on the server's reader (any messages, None, exceptions), and every number of assignments made when the page is asked for", "why_tests_cant": "the entries shown depend on the whole history of sentences and on when, between two assignments of the other thread, the page is asked for", "anchors": ["examples/webserver/nmeaserver.py: GNSSStreamer._read_thread, set_data, get_data", "src/pynmeagps/nmeareader.py: NMEAReader.read"]}
{"id": "C103", "title": "dms2deg: which texts are read, and as what", "statement": "dms2deg(text, rnd) either returns a float or raises ValueError. It succeeds exactly if the text without its blanks is one, two or three groups - a number of decimal digits with at most one point, followed by one character that is neither a digit nor a point - followed by an optional N, S, E or W and an optional newline. The result is then degrees + minutes/60 + seconds/3600 of the groups that are there, rounded to rnd decimals (within 1e-12), and negative exactly if an S or W occurs anywhere in the text.", "quantifier": "for every text and every rnd up to 20; the value for groups up to 1000", "why_tests_cant": "the texts are unbounded and the numbers in them arbitrary; a test fixes finitely many separators, digits and group counts", "anchors": ["src/pynmeagps/nmeahelpers.py: dms2deg"]}
{"id": "C104", "title": "Payload lists that hold values other than texts", "statement": "NMEAMessage(talker, msgID, mode, payload=items) where the list holds ints, floats, bools, None, dates or times beside texts: (a) a list of texts behaves as described by the other properties; (b) the payload property keeps the items as they were given; (c) for an ordinary message id with a definition, construction either succeeds - each item then read by the type of its attribute: text types keep the item itself, decimals and integers convert numbers, dates and times become an empty text, latitudes and longitudes are refused; with repeating groups the items are laid over the definition as texts would be, a count item giving the number of repeats - or raises NMEATypeError because some item has no value of the type of its place, a repeat count is no integer, or (for the checksum) an item has no text; (d) for an id without definition the items themselves become field_01, field_02, ... and no checksum is computed, unless ids are validated (NMEAMessageError); (e) a computed checksum is that of the texts str() gives; (f) serialize() succeeds only if every item is a text: with any other item it raises TypeError, so that a message can be built which cannot be serialized.", "quantifier": "every talker, message id, mode, validation flag, user definition, checksum and list of str/int/float/bool/None/date/time/naive datetime values", "why_tests_cant": "the repository tests three lists of zeros for unknown ids; the claim is for every list, every definition and every mixture of types", "anchors": ["src/pynmeagps/nmeamessage.py:NMEAMessage.__init__", "src/pynmeagps/nmeamessage.py:_do_attributes", "src/pynmeagps/nmeamessage.py:_set_attribute_single", "src/pynmeagps/nmeamessage.py:_set_attribute_nominal", "src/pynmeagps/nmeamessage.py:str2val", "src/pynmeagps/nmeamessage.py:serialize", "src/pynmeagps/nmeahelpers.py:generate_checksum"]}
{"id": "C105", "title": "Exactly which texts are read as a time or a date, and as which", "statement": "time2utc(s), and with it every attribute of time type, gives a time exactly when s (with '.00' appended if it has six characters) is, as a whole, an hour, minute, second, point and fraction, each of these parts taking as many characters as it can: hours 0-23, minutes 0-59, seconds 0-59, each of one or two digits (the second digit of an hour 0-1x, of a minute or of a second below 60 may be of any script), and one to six ASCII digits of fraction. Otherwise the attribute is an empty text; there is no error. date2utc(s) likewise, for ddmmyy, ddmmyyyy (DTL) and mmddyy (DM): a day may have one digit or a leading blank, a month one digit, two-digit years up to 68 are 20yy and the others 19yy, and the day must exist in that month. Consequences: what precedes the point of an accepted time has three to six digits; a six-character time is hhmmss with two digits each and nothing else; a six-character date is read two by two; but texts with lost digits can be accepted as another time or date (12345.00 is 12:34:05, 2534.50 is 02:53:04.5, 1124 is 1 January 2024).", "quantifier": "every text, every date form", "why_tests_cant": "the unit tests show a handful of good times and dates; which of the infinitely many damaged texts are turned into a wrong time rather than an empty text depends on the greedy matching of strptime", "anchors": ["src/pynmeagps/nmeahelpers.py:time2utc", "src/pynmeagps/nmeahelpers.py:date2utc", "src/pynmeagps/nmeamessage.py:_set_attribute_single"]}
{"id": "C106", "title": "Exactly which texts are read as an integer or a decimal number, and as which", "statement": "A field of integer type is accepted exactly if it is empty (the attribute is then an empty text) or, as a whole, an optional sign followed by 1 to 4300 decimal digits of any script, with single underscores allowed between two digits, surrounded by any amount of white space; the attribute is the number written. A field of decimal type is accepted exactly if it is empty or, up to surrounding white space and underscores between digits, an optional sign followed by digits with at most one point (at least one digit) and an optional exponent e or E with its own sign, or one of the words inf, infinity, nan in either case; the attribute is the binary64 number nearest to the number written (infinite beyond the range), with its sign. Every other text is refused with ValueError (so that the message is refused). No text is read as two numbers, and every text of an integer is the text of a decimal with the nearest value. In a parsed message every non-empty integer or decimal field therefore has such a text, and the attribute has that value.", "quantifier": "every text; every sentence, mode, validation flag and definition for the last sentence", "why_tests_cant": "the unit tests show a few plain numerals; the claim is about every text, and it delimits what a damaged or hostile field can be read as", "anchors": ["src/pynmeagps/nmeamessage.py:str2val", "src/pynmeagps/nmeamessage.py:_set_attribute_single"]}
{"id": "C107", "title": "What the example main programs send", "statement": "Whatever the threads, the port and the user (Ctrl-C at any moment) do, what nmeapoller.py has written to the port is a valid poll `$EIGNQ,<id>*ck` for each of the first sentence types of NMEA_MSGIDS, in table order, none twice and none left out, each of which parse() reads back as that poll; what quecteldemo.py has written is the beginning of one fixed list of 40 command lines; neither main() is ended by an exception; the stop event is set by Ctrl-C or, in nmeapoller.py, when all has been queued, and not otherwise; and once main() is through, the port then answers a read() and accepts writes, all of the polls or commands are written. Exception (refuted for quecteldemo.py): six commands (four PQTMCFGUART, PQTMCFGSAT, PQTMCFGSIGNAL) are built but never sent, in any run: the preceding query is sent again in their place.", "quantifier": "every interleaving of the main program with the I/O and process threads, every port, every moment of Ctrl-C, every time of day", "why_tests_cant": "the programs need a receiver and three concurrent threads; the order and completeness of what is sent must hold for every schedule and every interruption", "anchors": ["examples/nmeapoller.py: main, io_data", "examples/quecteldemo.py: main, send, io_data", "src/pynmeagps/nmeamessage.py: NMEAMessage.__init__, serialize"]}
{"id": "C108", "title": "What the example web server sends", "statement": "For a GET request the example web server sends, for '/' and '/index.html', '/scripts.js', '/styles.css' and '/favicon.ico', status 200 and that file with every end of line as a line feed and otherwise byte for byte, provided the file exists and is UTF-8, and nothing at all otherwise; for '/gps' status 200, application/json and the twelve GPS entries as an ASCII JSON object; and for any other path status 501 and 'Unknown Request'. No other file of the directory can ever influence an answer, and no answer is sent in part. The icon that comes with the server is not UTF-8, so '/favicon.ico' is never answered.", "quantifier": "every request path, every content of the directory, every history of received sentences and every moment of the request", "why_tests_cant": "all paths, file contents and histories", "anchors": ["examples/webserver/gpshttpserver.py:GPSHTTPHandler.do_GET", "examples/webserver/nmeaserver.py:GNSSStreamer.get_data", "examples/webserver/favicon.ico"]}
{"id": "C109", "title": "A received message can always be shown", "statement": "If parse() returns a message for some bytes (or for a str without surrogates), then identity, str(), repr() and serialize() of that message all succeed, and the text of str() can be printed as UTF-8: none of them ever raises, under any mode and flags, for all built-in definitions and for user definitions whose attribute names are not empty (with an empty name str() raises IndexError; a str with a lone surrogate parses but cannot be serialized).", "quantifier": "every input of parse(), every mode and flags, every user definition", "why_tests_cant": "all sentences and definitions", "anchors": ["src/pynmeagps/nmeamessage.py:NMEAMessage.__str__", "src/pynmeagps/nmeamessage.py:NMEAMessage.__repr__", "src/pynmeagps/nmeamessage.py:NMEAMessage.identity", "src/pynmeagps/nmeamessage.py:NMEAMessage.serialize", "src/pynmeagps/nmeareader.py:NMEAReader.parse"]}
{"id": "C110", "title": "The example log file reader", "statement": "nmeafile.py reads the file named by its last filename= argument (else nmeadata.log) and no other; for every content it ends, printing str() of each sentence that parses, once, in order, then their number; lines that do not parse leave no trace (its error handler is never called, because quitonerror=False is ERR_IGNORE). Only the IndexError of C07 (a PUBX-like sentence without fields) ends it early. An argument without exactly one '=' ends it with ValueError before anything is printed.", "quantifier": "every command line, every file content", "why_tests_cant": "all files and command lines", "anchors": ["examples/nmeafile.py:main", "examples/nmeafile.py:errhandler"]}
{"id": "C111", "title": "Error texts name the true cause", "statement": "The text of every error of parse(), of the constructor and of the reader says truthfully what is wrong: a wrong checksum is reported with the sentence, the checksum it carries and the one it should carry (with which the sentence parses as the original does without checksum validation); unknown talkers, message ids and definitions, malformed messages (a byte string that is no UTF-8 is shown as a literal that denotes it), invalid modes and missing selectors are named; the attribute of a type error is the first one of the definition that cannot be decoded, all before it can; the beginnings of the texts tell the kinds apart, and an error of the library about a str or bytes message always has a text. The reader raises, hands to the error handler or logs exactly these texts, once each, in stream order; headers that are not NMEA and a last line that is cut off are reported with the bytes seen and their number. Exception: a mode with more than 4300 digits cannot be written (ValueError).", "quantifier": "every message, mode, validation flags, user definitions, keyword arguments; every stream, gap and line list; every error handler", "why_tests_cant": "the text depends on the input; tests compare a few literal texts", "anchors": ["src/pynmeagps/nmeareader.py:NMEAReader.parse", "src/pynmeagps/nmeareader.py:NMEAReader.read", "src/pynmeagps/nmeareader.py:NMEAReader._read_line", "src/pynmeagps/nmeareader.py:NMEAReader._do_error", "src/pynmeagps/nmeamessage.py:NMEAMessage.__init__", "src/pynmeagps/nmeamessage.py:NMEAMessage._do_attributes", "src/pynmeagps/nmeamessage.py:NMEAMessage._get_dict", "src/pynmeagps/nmeahelpers.py:get_parts"]}
{"id": "C112", "title": "A socket wrapper holds back a bounded amount of data", "statement": "Without chunked encoding, if recv() delivers at most b bytes at a time and no read() asks for more than m+1, at most m+b bytes are ever waiting in the buffer, however long the stream is (at most b between the messages of a reader). For a chunked stream without compression whose chunks, with their size lines, have at most c bytes (and no segment ends as in C38), at most m+c+b bytes wait and the partial chunk has at most c bytes; decoding never makes data longer. Exception: a peer that never completes a chunk makes the wrapper keep all it sends, while every read() returns b''.", "quantifier": "every sequence of recv() results, every sequence of read() and readline() calls, every chunked stream", "why_tests_cant": "all streams, segmentations and call sequences of any length", "anchors": ["src/pynmeagps/socketwrapper.py:SocketWrapper._recv", "src/pynmeagps/socketwrapper.py:SocketWrapper.read", "src/pynmeagps/socketwrapper.py:SocketWrapper.readline", "src/pynmeagps/socketwrapper.py:SocketWrapper.in_waiting", "src/pynmeagps/socketwrapper.py:SocketWrapper.dechunk"]}
{"id": "C113", "title": "Error handlers that use the reader lose nothing", "statement": "An error handler may itself call the reader's read() (or iterate it) while it handles an error, to any depth. Then everything the stream holds still comes to light exactly once and in stream order: each message is returned by the one read() call that met it (the program's or a handler's), each error is passed to the handler once, and a loop that ends normally has seen the whole stream. For the handler that keeps one more message for each error, exactly the next message not yet promised goes to the handler, and program and handler together receive every message once. If the handler also reads from the stream directly (reader.datastream), the messages delivered and the bytes it took are still disjoint consecutive pieces of the stream, and every message delivered is what parse() gives for its bytes.", "quantifier": "every byte stream over a file or a socket cut in any way, every user definition and setting with quitonerror=ERR_LOG, every handler that terminates, whatever it reads, keeps or raises, and any depth of handlers inside handlers", "why_tests_cant": "the handler's reads interleave with the read() that is still running; the claim is about every handler program and every order of errors and messages", "anchors": ["src/pynmeagps/nmeareader.py:NMEAReader.read", "src/pynmeagps/nmeareader.py:NMEAReader._do_error", "src/pynmeagps/nmeareader.py:NMEAReader.datastream"]}
{"id": "C114", "title": "Changing the settings while a stream is read", "statement": "A program may read a stream through several NMEAReaders with different settings (mode, validation, nmeaonly, quitonerror, handler, user definitions), opening each on the same file or on reader.datastream, and choose which one to call next from all it has seen so far. Each read() then gives what its own settings make of what the earlier ones left, and nothing else about the earlier ones matters; the messages delivered to all of them together are lines of the stream, each at most once and in order, and what is left is untouched. With quitonerror=ERR_RAISE and nmeaonly=True each call takes exactly one element of the stream (a sentence, an unknown header, a cut line), whatever else the settings are.", "quantifier": "every byte stream over a file or a plain connection cut in any way, every number of calls, every program that chooses the settings of the next call from the outcomes and reports so far", "why_tests_cant": "the claim is about all interleavings of all settings, chosen adaptively, on all streams", "anchors": ["src/pynmeagps/nmeareader.py:NMEAReader.__init__", "src/pynmeagps/nmeareader.py:NMEAReader.read", "src/pynmeagps/nmeareader.py:NMEAReader.datastream", "src/pynmeagps/socketwrapper.py:SocketWrapper"]}
{"id": "C115", "title": "The default Earth", "statement": "Calls that leave out the radius, the semi-major axis or the flattening work on the WGS84 Earth in the documented units: haversine() in kilometres and area() in square kilometres on a sphere of 6378.137 km, planar() in metres on one of 6378137 m (so along the equator planar gives exactly 1000 times the number haversine gives), llh2ecef() and ecef2llh() in metres on the ellipsoid whose equator is 6378137 m and whose poles are 6356752.314245 m from the centre, and these two undo each other to 2e-8 degrees and 2 mm. An argument that is given is used as given, and leaving out only the flattening keeps the WGS84 shape on the given axis. In binary64 the default distances are within 2 cm (haversine) and 0.13 micrometres (planar) and the default area within two square metres of these.", "quantifier": "all positions, heights, radii and axes", "why_tests_cant": "the claim is about all positions and heights", "anchors": ["src/pynmeagps/nmeahelpers.py:area", "src/pynmeagps/nmeahelpers.py:haversine", "src/pynmeagps/nmeahelpers.py:planar", "src/pynmeagps/nmeahelpers.py:llh2ecef", "src/pynmeagps/nmeahelpers.py:ecef2llh", "src/pynmeagps/nmeatypes_core.py:WGS84_SMAJ_AXIS", "src/pynmeagps/nmeatypes_core.py:WGS84_FLATTENING"]}
{"id": "C116", "title": "Interrupting a socket reader (Ctrl-C)", "statement": "An exception that recv() raises and the wrapper does not catch (KeyboardInterrupt, an exception from a signal handler) comes out of the reading loop unchanged, after every message and error that came before it, as if the connection had no interrupt (a last line that ends with LF alone may be wanting). Nothing received stays behind and nothing to come is lost: if whole lines (CR LF) had arrived, all their messages have been delivered, and a loop started again on the same reader delivers exactly what a new reader would for the rest of the connection. If the interrupt falls within a sentence, what had arrived of that sentence is lost. An interrupt of the wrapper's first recv() comes out of the constructor.", "quantifier": "all connections cut into segments in any way, any moment of the interrupt between two answers of the network, any such exception, all reader settings; the first part also for chunked and compressed connections", "why_tests_cant": "the interrupt can come at any point of any stream", "anchors": ["src/pynmeagps/socketwrapper.py:SocketWrapper._recv", "src/pynmeagps/socketwrapper.py:SocketWrapper.read", "src/pynmeagps/socketwrapper.py:SocketWrapper.readline", "src/pynmeagps/nmeareader.py:NMEAReader.read"]}
{"id": "C117", "title": "The example socket reader", "statement": "nmeasocket.py connects to the host and port of its last ipaddress= and ipport= arguments (else localhost, 50012) and no other; an argument without exactly one '=' or a port that is no integer ends it with ValueError before anything is printed. It then prints str() of each message delivered, once, in order, while errors go to the log, whatever arrives and however it is cut. When the peer closes the connection it ends without a word; on Ctrl-C it prints the number of those messages, the seconds of the session and their quotient. The seconds leave out whole days, so a session that lasted exactly some days (or no time at all) ends with ZeroDivisionError instead.", "quantifier": "every command line, every host, all data ending with CR LF cut in any way, every duration", "why_tests_cant": "all connections, command lines and durations", "anchors": ["examples/nmeasocket.py:main"]}
{"id": "C118", "title": "Reading a serial port through io.BufferedReader", "statement": "NMEAReader(BufferedReader(serial), ...), as the web server example builds it, sees and reports exactly what NMEAReader(serial, ...) would, however the bytes are cut into raw reads and wherever a raw read comes back empty: an application that goes on reading gets the same sentences, errors and handler calls, and so does a for loop. The server's loop, which calls read() only while serial.in_waiting is non-zero, gets the first part of that sequence, whenever it is stopped; what it has not looked at is still in the buffer, and is always the end of the bytes the latest raw read brought, so the lag is at most one raw read. If every raw read brings one whole sentence line there is no lag. Exception (refuted as one might expect it): when a raw read brings several sentences, a complete sentence stays in the buffer, unread and not shown, until further bytes arrive at the port - the in_waiting test does not see the buffer.", "quantifier": "all byte streams, all ways of cutting them into raw reads, empty ones included, all reader settings and error policies, every moment at which the server is stopped", "why_tests_cant": "the cut points and timings are unbounded; a test fixes one of them", "anchors": ["examples/webserver/nmeaserver.py: GNSSStreamer.connect, _read_thread", "src/pynmeagps/nmeareader.py: NMEAReader.read, _read_bytes, _read_line"]}
{"id": "C119", "title": "The benchmark program", "statement": "All thirty messages of examples/benchmark.py are read, and are exactly what serialize() gives back. benchmark(cycles=n) with n of at least 20 (10000 if nothing is given) reads every message of every cycle - 30 * n in all - and ends with 30 * n * 1e9 / duration messages per second and 1889 * n * 1e9 / duration / 1024 kB per second; meanwhile the progress bar is printed at each multiple of n // 20, always 20 blocks wide, k of them dark at 5 * k percent with k = 20 * i // n; if 20 divides n it is printed twenty times, 0%, 5%, ..., 95% (never 100%). With n <= 0 nothing is read. Exceptions (refuted as one might expect it): for 1 to 19 cycles the progress bar divides by zero, before any message is read; and so does the last line when the process clock has not advanced.", "quantifier": "all numbers of cycles below 4.5e14, given as a number or as any text int() accepts, and all durations", "why_tests_cant": "a test runs one number of cycles", "anchors": ["examples/benchmark.py: progbar, benchmark", "src/pynmeagps/nmeareader.py: NMEAReader.parse"]}
