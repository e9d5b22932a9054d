"""Regenerates /verif/properties.jsonl (one JSON object per line)."""
import json, os

P = []
def p(id, title, statement, quantifier, why, anchors):
    P.append(dict(id=id, title=title, statement=statement, quantifier=quantifier, why_tests_cant=why, anchors=anchors))

S = "src/psrpcore/"
p("C01", "Fragment wire format round-trips",
  "For every object id and fragment id below 2^64, every data block shorter than 2^32 bytes, either end flag, and any bytes that follow on the wire, unpacking what create_fragment produced returns exactly that object id, fragment id, data and end flag, with the start flag set exactly when the fragment id is 0; the encoding is 21 bytes plus the data. Values outside those ranges are rejected with an error instead of being truncated.",
  "all object ids, fragment ids, data blocks, end flags and trailing bytes",
  "The id and length spaces are 2^64 and 2^32; byte order and masking errors only show at particular digits.",
  [S+"_payload.py: create_fragment, unpack_fragment"])
p("C02", "Message wire format round-trips",
  "For every message type, runspace pool id, optional pipeline id and payload, unpacking what create_message produced gives the same type, pool id, pipeline id and payload, and the destination is 2 for a client sender and 1 for a server sender. The only two normalisations are that an all-zero pipeline id reads back as no pipeline and that one UTF-8 byte order mark at the start of the payload is dropped. Input shorter than 40 bytes or with an unknown type is always an error.",
  "all 31 message types, all 128-bit ids, all payloads, all short or malformed inputs",
  "Two 128-bit ids plus a payload; mixed-endian GUID swaps look right on palindromic test ids.",
  [S+"_payload.py: create_message, unpack_message"])
p("C03", "A payload never exceeds the requested size",
  "data_to_send(n) with n >= 22 returns either nothing or a payload of between 22 and n bytes; with n < 22 it raises and leaves everything queued unchanged; it returns nothing exactly when nothing is queued.",
  "all queues of messages in any partially sent condition, all amounts",
  "Depends on the arithmetic of all remaining message lengths against the amount, including exact-fit boundaries.",
  [S+"_base.py: RunspacePool.data_to_send", S+"_payload.py: PSRPMessage.fragment"])
p("C04", "Sending always makes progress and drains",
  "Every data_to_send call that returns a payload sends at least one not-yet-sent message byte, for any amount >= 22, so calling it repeatedly empties the queue in at most as many calls as there are queued bytes, no matter how the amounts vary.",
  "all queues and all infinite sequences of amounts",
  "A livelock needs a particular residue of message length against fragment overhead; no finite set of amounts covers it.",
  [S+"_base.py: RunspacePool.data_to_send"])
p("C05", "End-to-end delivery is exactly-once and in order",
  "If one peer queues any sequence of messages, interleaved in any way with data_to_send calls of any amounts, and the other peer is given the resulting payloads in order with next_event calls made at any points in between, then the messages the receiver obtains are always a prefix of the messages queued, byte-for-byte equal, in queue order, without loss or duplication; once everything is sent and received the sequences are equal.",
  "all interleavings of queue, send, transfer and receive steps; all message contents, targets and amounts",
  "The schedule space is infinite and the state (partial fragments on both sides) is only exercised by particular interleavings.",
  [S+"_base.py: RunspacePool.data_to_send, receive_data, next_event, prepare_message", S+"_payload.py"])
p("C06", "A payload only carries data for one target",
  "All fragments inside one payload belong to messages for the same target (the runspace pool or one pipeline), and the payload's pipeline_id is that target.",
  "all queues of messages for any mix of targets, all amounts",
  "Requires every mix of adjacent targets and fit conditions.",
  [S+"_base.py: RunspacePool.data_to_send"])
p("C07", "Fragment numbering on the wire",
  "Over the whole life of a connection the fragments sent for one message are numbered 0, 1, 2, ... without gaps, the first and only the first is marked start, exactly one - the last - is marked end, and their data concatenates to the message; different messages use different object ids.",
  "all schedules of queueing and sending with any amounts",
  "It is a statement about whole histories of send calls.",
  [S+"_base.py: RunspacePool.data_to_send, prepare_message", S+"_payload.py: PSRPMessage"])
p("C08", "Lost, repeated or reordered fragments are never accepted silently",
  "A fragment whose number is not the next one expected for its object makes next_event raise; nothing is delivered because of it, the data already collected for every object and all completed messages are unchanged.",
  "all receiver states and all incoming fragments",
  "The set of wrong fragment numbers and partial states is unbounded.",
  [S+"_base.py: RunspacePool.next_event"])
p("C09", "next_event is total on arbitrary bytes",
  "For any receive buffer whatever, next_event terminates with an event, with nothing, or with an error; it never reports an event that was not completed by an end fragment, and a trailing block shorter than a fragment header raises while keeping those bytes so that later data can complete them.",
  "all byte strings and all receiver states",
  "Arbitrary hostile or truncated input.",
  [S+"_base.py: RunspacePool.next_event", S+"_payload.py: unpack_fragment, unpack_message"])
p("C10", "Chunking of received data does not matter",
  "Handing the bytes of a payload to the receiver in several receive_data calls, with next_event called in between, yields the same events as handing them over at once.",
  "all payload bytes and all ways of cutting them",
  "Every cut position of every payload.",
  [S+"_base.py: RunspacePool.receive_data, next_event", S+"_payload.py: unpack_fragment"])
p("C11", "Interleaved objects reassemble independently",
  "If the fragments of several objects with different object ids arrive interleaved in any order that keeps each object's own fragments in sequence, every object is reassembled to exactly its own bytes, and messages come out in the order in which their last fragments arrived.",
  "all interleavings of any number of fragment sequences",
  "The number of interleavings is exponential.",
  [S+"_base.py: RunspacePool.next_event"])
p("C12", "Prompt-response and default data are not mixed in one payload",
  "All messages inside one payload have the stream type the payload is labelled with.",
  "all queues and amounts",
  "Needs a particular adjacency of queued messages.",
  [S+"_base.py: RunspacePool.data_to_send", S+"_payload.py: StreamType"])
p("C13", "String escaping round-trips",
  "Every string that is valid Unicode (no lone surrogates) survives CLIXML escaping followed by un-escaping unchanged, including strings that already contain text looking like an escape sequence in either letter case, control characters and characters outside the basic plane.",
  "all Unicode strings of any length",
  "Escapes interact across character boundaries; the space of strings is infinite.",
  [S+"types/_serializer.py: _serialize_string, _deserialize_string"])
p("C14", "Escaped strings are safe to put in XML",
  "The escaped form of any string contains no C0/C1 control character, no surrogate and no character outside the basic plane.",
  "all strings",
  "Every code point in every context.",
  [S+"types/_serializer.py: _serialize_string"])
p("C15", "Fixed-width integers round-trip and are range checked",
  "For each of the eight integer types, a value is accepted exactly when it lies in the type's range, and the text written for an accepted value reads back as the same value; arithmetic on these values never yields a value outside the range.",
  "all integers, all eight types, all operators",
  "64-bit ranges with off-by-one boundaries.",
  [S+"types/_primitive.py: PSIntegerBase, PSByte..PSInt64", S+"types/_serializer.py: _Serializer.serialize, deserialize"])
p("C16", "Plain Python integers get a type that can hold them",
  "Serializing a plain Python int picks an integer element whose type can hold the value, so it reads back as the same number; numbers outside the 64-bit range are rejected.",
  "all integers",
  "Boundary of the tag selection over an unbounded domain.",
  [S+"types/_serializer.py: _Serializer.serialize (int branch)"])
p("C17", "Durations round-trip to 100 ns",
  "Every duration survives serialization to XML duration text and back, rounded down to a multiple of 100 ns and otherwise unchanged, whatever its sign and size.",
  "all durations (all integers of nanoseconds)",
  "The text form drops zero components and trailing zeros; failures are at particular values.",
  [S+"types/_serializer.py: _serialize_duration, _deserialize_duration", S+"types/_primitive.py: PSDuration, _timedelta_total_nanoseconds"])
p("C18", "Date-times round-trip",
  "Every date-time from year 1000 to 9999 with any microsecond, any 100 ns digit and no zone, UTC or any fixed whole-minute offset survives serialization and parsing with all fields equal.",
  "all dates, times, fractions and offsets",
  "Product of calendar, fraction and offset; string slicing positions matter.",
  [S+"types/_serializer.py: _serialize_datetime, _deserialize_datetime"])
p("C19", "Version values round-trip and order consistently",
  "Every version of two to four non-negative components reads back from its own text with the same components, and the comparison operators define one total order (trichotomy, transitivity) that agrees with component order where missing components sort before present ones.",
  "all component tuples, all pairs and triples of versions",
  "Order laws quantify over triples.",
  [S+"types/_primitive.py: PSVersion"])
p("C20", "Byte arrays and base64 text round-trip",
  "Every byte string survives base64 encoding and decoding; every other CLIXML text form with a fixed alphabet used here (GUID bytes in little-endian layout, characters as code unit numbers) is inverted exactly by its reader.",
  "all byte strings, all GUIDs, all UTF-16 code units",
  "Length-dependent padding and mixed endianness.",
  [S+"types/_serializer.py: _Serializer", S+"types/_primitive.py: PSByteArray, PSChar, PSGuid", S+"_payload.py: create_message"])
p("C21", "CLIXML documents round-trip",
  "Any value built from null, booleans, the primitive types, lists, stacks, queues, dictionaries and objects with type names, adapted and extended properties, nested to any depth, is equal after serialize and deserialize, with the container kind, the type names, the property names and order, and the property kind preserved.",
  "all finite value trees",
  "Unbounded nesting; references and type-name references carry state across the whole document.",
  [S+"types/_serializer.py: _Serializer.serialize, deserialize"])
p("C22", "Reference ids in a document are unique and resolvable",
  "In the output of one serializer every object element has a reference id no other object element of the document has, every Ref element names an object whose element starts earlier in the document, and every type-name reference names a type-name list that occurs earlier.",
  "all object graphs, including shared and repeated objects, and all sequences of values through one serializer",
  "Global document property over unbounded graphs.",
  [S+"types/_serializer.py: _Serializer._get_ref_id, serialize"])
p("C23", "Shared objects stay shared and distinct objects stay distinct",
  "Two occurrences of the same object in one document become one object after deserialization, and two different objects stay two different objects with their own property values.",
  "all object graphs",
  "Depends on global aliasing structure.",
  [S+"types/_serializer.py: _Serializer._get_ref_id, _update_value_ref"])
p("C24", "Type names survive type-name references",
  "Every object is read back with exactly the list of type names it was written with, also when an earlier object in the document had the same first type name.",
  "all documents and type-name lists",
  "Needs two objects that agree on the first name and differ later.",
  [S+"types/_serializer.py: _Serializer.serialize (TN/TNRef), deserialize"])
p("C25", "Secure strings round-trip and need a key",
  "With any registered session key every string, including one with lone surrogates, decrypts to itself after encryption; the cipher text given to AES is a positive multiple of 16 bytes; with no key registered both directions raise and never produce output.",
  "all strings and all keys, for any block cipher that is a permutation on 16-byte blocks",
  "Padding at every length modulo 16.",
  [S+"_crypto.py: PSRemotingCrypto"])
p("C26", "Session key exchange delivers the key",
  "For every public key and every session key, the blob the server builds from the client's public key message is decrypted by the client to exactly that session key, and the server reconstructs exactly the client's modulus and exponent from the public key blob, whatever leading or trailing zero bytes the numbers have.",
  "all moduli, exponents and session keys, for any RSA implementation that inverts",
  "Big-endian/little-endian reversal bugs only show with zero bytes at the ends.",
  [S+"_crypto.py: create_keypair, encrypt_session_key, decrypt_session_key"])
p("C27", "Rejected pool operations have no effect",
  "Every runspace pool or pipeline operation that raises because of the current state leaves the pool, its pipelines, its counters and the send queue exactly as they were; each operation is accepted in exactly the states its documentation lists.",
  "all client and server states and all operations",
  "All combinations of operation and state with arbitrary other content.",
  [S+"_base.py: RunspacePool, Pipeline", S+"_client.py", S+"_server.py"])
p("C28", "Call ids are unique for the life of a pool",
  "Every call id handed out by a pool differs from all call ids it handed out before, whatever operations, including failed ones, happen in between.",
  "all operation histories",
  "Statement over unbounded histories.",
  [S+"_base.py: _ci_counter", S+"_client.py", S+"_server.py: host_call, connect"])
p("C29", "Runspace limits change exactly when the peer agreed",
  "On the client the maximum (minimum) number of runspaces changes only through a direct set before opening, an init-data message, or a positive answer to a set_max_runspaces (set_min_runspaces) call, and then becomes exactly the value given in the call that was answered, also with many calls outstanding and answers in any order; each outstanding call is consumed by its first answer.",
  "all histories with any number of outstanding calls and any answer order",
  "Concurrency of outstanding calls.",
  [S+"_client.py: set_max_runspaces, set_min_runspaces, _process_RunspaceAvailability, _set_runspaces_handler", S+"_server.py: runspace_availability_response"])
p("C30", "Client and server agree on runspace limits when idle",
  "After the handshake, for any sequence of set_max/set_min calls and server answers carried over an in-order connection, whenever no request or answer is outstanding the client's and the server's minimum and maximum are equal.",
  "all interleavings of requests, deliveries and answers",
  "Distributed two-party invariant over all schedules.",
  [S+"_client.py", S+"_server.py"])
p("C31", "The client tracks the server's pool state",
  "Over an in-order connection, whenever everything the server sent has been processed, the client's pool state equals the state the server last announced, and the server announces every state change except the disconnect/connect ones.",
  "all histories of server state changes and deliveries",
  "Unbounded histories.",
  [S+"_server.py: ServerRunspacePool._change_state", S+"_client.py: _process_RunspacePoolState"])
p("C32", "Open handshake",
  "When a fresh client opens and a fresh server processes what it sent, in any interleaving of deliveries, both end in the Opened state with the client's pool id and runspace limits, and each holds the other's advertised protocol version; no other outcome is possible.",
  "all delivery schedules, all client configurations",
  "All interleavings of the message exchange.",
  [S+"_client.py: open", S+"_server.py: _process_SessionCapability, _process_InitRunspacePool"])
p("C33", "Pipelines belong to the table exactly while they are open",
  "A pool's pipeline table contains exactly the pipelines created on it and not closed since; the pool cannot be closed while it is non-empty; data or state for one pipeline never alters another pipeline.",
  "all histories of pipeline creation, start, state messages and close",
  "Unbounded histories with many pipelines.",
  [S+"_base.py: Pipeline, RunspacePool.close", S+"_client.py: _process_PipelineState"])
p("C34", "Host calls are answered at most once and to the right caller",
  "A response to a host call carries the same call id, method and pipeline as the call; once a response has been queued for a call another response to it raises and sends nothing; calls to void methods use call id -100 and are never tracked; if building a response fails the call can still be answered later.",
  "all histories of host calls and responses with any number outstanding",
  "Ordering of outstanding calls is unbounded.",
  [S+"_client.py: host_response, _process_PipelineHostCall, _process_RunspacePoolHostCall", S+"_server.py: host_call", S+"types/_host.py: HostMethodIdentifier.is_void"])
p("C35", "Key exchange happens at most once and both sides end with the same key",
  "However often the client calls exchange_key and the server calls request_key, at most one public key is sent by a client and at most one request by a server, and once the answer is processed the client holds the server's session key.",
  "all interleavings of requests and deliveries",
  "Races between both sides starting the exchange.",
  [S+"_client.py: exchange_key, _process_PublicKeyRequest, _process_EncryptedSessionKey", S+"_server.py: request_key, _process_PublicKey"])
p("C36", "Version-gated messages are never sent to old peers",
  "reset_runspace_state and write_information raise and send nothing unless the peer has announced protocol version 2.3 or later.",
  "all states and all announced versions",
  "All version values, including none announced.",
  [S+"_client.py: reset_runspace_state", S+"_server.py: write_information"])
p("C37", "A pipeline's command list survives the wire",
  "For any list of commands with statement boundaries, parameters, scripts, local-scope settings and redirections, the server reconstructs from the create-pipeline message the same commands in the same statements with the same parameters and redirections (the last command always counts as ending its statement), when the peer speaks protocol 2.3.",
  "all command lists",
  "Unbounded lists; statement grouping at boundaries.",
  [S+"_pipeline.py: PowerShell", S+"_command.py: Command"])
p("C38", "Stream redirections survive the wire at the protocol the peer speaks",
  "A redirection set with redirect_error/warning/verbose/debug/information/all is read back by a peer exactly when the negotiated protocol can carry it, and one that cannot be carried is dropped without changing any other setting.",
  "all sequences of redirect calls, all protocol versions",
  "Combination of call histories and versions.",
  [S+"_command.py: Command.redirect_*, ToPSObjectForRemoting, FromPSObjectForRemoting"])
p("C39", "Property lists stay free of duplicates",
  "Starting from an object without duplicate property names, any sequence of member additions leaves at most one property per name in each property list; adding an existing name without force raises and changes nothing, with force replaces exactly that property.",
  "all objects and all sequences of additions",
  "Unbounded sequences.",
  [S+"types/_base.py: add_member, add_note_property"])
p("C40", "Attribute reads return the last value written",
  "Reading a settable property of an object returns the value of the last write to it, writes to one property never change another, and properties shadow each other in the documented order (extended before adapted).",
  "all objects and all sequences of reads and writes",
  "Unbounded sequences; shadowing combinations.",
  [S+"types/_base.py: PSObject.__getattribute__, __setattr__, PSPropertyInfo"])
p("C41", "Two-dimensional buffers survive packing",
  "A rectangular non-empty grid of cells packed for a host call is unpacked to the same grid.",
  "all grid sizes and contents",
  "Row/column swaps are invisible on square or uniform grids.",
  [S+"_host.py: _create_multi_dimensional_array", S+"_events.py: _unpack_multi_dimensional_array"])
p("C42", "Host method parameters and results survive encoding",
  "For each host method that converts its parameters or result, decoding what the sending helper encoded gives back the original arguments.",
  "all methods and all argument values",
  "56 methods with argument-position conventions.",
  [S+"_host.py: ServerHostRequestor, ClientHostResponder", S+"_events.py: _decode_host_call_parameters, _decode_host_resp_result", S+"types/_host.py"])
p("C43", "CLIXML shell output carries its header exactly once",
  "Everything data_to_send of a CLIXML shell returns over its life, concatenated, is the CLIXML header once, first, followed by the documents for the written values in order; nothing queued means nothing is returned.",
  "all sequences of writes and data_to_send calls",
  "Order of an empty data_to_send call before the first write.",
  [S+"_clixml_shell.py: ClixmlShell.data_to_send, write_*"])
p("C44", "Lists of values with stream labels survive CLIXML text",
  "serialize_clixml followed by deserialize_clixml with preserve_streams returns the same list of values with the same stream labels.",
  "all lists, including the empty list",
  "List structure and string surgery on the document header.",
  [S+"types/_serializer.py: serialize_clixml, deserialize_clixml"])
p("C45", "Flag enumerations name their members",
  "The text written for a flag value lists exactly the named members contained in it, in definition order, and the zero member only when it is the only one.",
  "all flag types and all combinations of members",
  "Exponential combinations.",
  [S+"types/_serializer.py: _serialize_enum_to_string", S+"types/_enum.py"])
p("C46", "Serializing does not change the value",
  "Serializing a value leaves the value unchanged, so serializing it again gives the same document.",
  "all values",
  "Needs each container kind at any depth.",
  [S+"types/_serializer.py: _Serializer.serialize (queue branch)"])
p("C47", "Padding is inverted exactly and malformed padding is rejected",
  "PKCS#7 padding adds between 1 and 16 bytes, un-padding inverts it for every input, and un-padding accepts only byte strings that some input pads to.",
  "all byte strings",
  "All lengths and all last bytes.",
  [S+"_crypto.py: PSRemotingCrypto.encrypt, decrypt"])

p("C48", "Host information survives the wire",
  "The host flags and the default host data (colours, positions, sizes, title) read by the server are those the client sent, each in its own field.",
  "all host information values",
  "Ten positional entries, several of the same type.",
  [S+"types/_host.py: HostInfo, HostDefaultData"])

p("C49", "CLIXML output is read back stream by stream",
  "ClixmlOutput.from_clixml applied to what a CLIXML shell sends returns, for each stream, the values written to it in the order of writing; progress values give the records passed to write_progress; values of different streams never mix.",
  "all sequences of writes to all streams",
  "Interleavings of seven streams with arbitrary object graphs.",
  [S+"_clixml_shell.py: ClixmlOutput.from_clixml, ClixmlShell"])
p("C50", "The local crypto provider inverts itself",
  "decrypt(encrypt(s)) == s for the provider used with CLIXML files on platforms without DPAPI, and the cipher text is upper-case hex, four digits for each UTF-16 code unit.",
  "all str, including lone surrogates",
  "Unbounded strings; surrogates.",
  [S+"_clixml_shell.py: LocalCryptoProvider"])
p("C51", "What is written has the documented form",
  "Every value is written as an element of the CLIXML grammar ([MS-PSRP] 2.2.5): the element name of its type, RefId and N attributes, type names, adapted and extended properties, container body and ToString in that order, and scalar texts in the lexical form of their XML type (decimal numerals without leading zeros, 8-4-4-4-12 lower-case GUIDs, base64, xs:dateTime, xs:duration, _xHHHH_ escapes); a document is the written form of such elements in one Objs element.",
  "all heaps, all values, all documents",
  "A round trip through the same library hides mistakes made the same way on both sides.",
  [S+"types/_serializer.py: serialize, _Serializer.serialize", S+"_clixml_shell.py: serialize_clixml"])
p("C52", "What every operation and every message does",
  "Each successful operation of a client or server pool and its pipelines, and each processed message, queues exactly the messages the protocol prescribes for it, with target, stream, pool id and consecutive object ids, moves the pool and the named pipeline to the prescribed state and leaves every other pipeline alone. Over a whole history a side sends only messages of its own direction, a message names a pipeline exactly if it belongs to one, host calls and responses and nothing else are on the prompt stream, and object ids count up from 1.",
  "all pools, all operations with all arguments, all messages, all histories",
  "Thirty kinds of operation and as many messages; a test looks at the message it expects, not at the absence of others.",
  [S+"_client.py: ClientRunspacePool, _ClientPipeline", S+"_server.py: ServerRunspacePool, ServerPipeline", S+"_base.py: RunspacePool.prepare_message, _process_message"])
p("C53", "The messages of a pipeline come in order",
  "A server sends output, records and host calls of a pipeline only while the state it announced last for that pipeline is Running, and that state is the pipeline's; a client sends input and end of input only after the message that creates the pipeline, and no input after the end of input.",
  "all histories of operations and received messages, any number of pipelines",
  "Interleavings of several pipelines started, stopped and restarted in any order.",
  [S+"_server.py: ServerPipeline", S+"_client.py: _ClientPipeline, ClientPowerShell.send, send_eof"])
p("C54", "Every message is read back from its bytes",
  "For each of the 31 kinds of message, the bytes made from a message (CLIXML in UTF-8) are read back, given the type code, as a message of the same kind with the same fields; the object handed to the serializer has exactly the documented properties in the documented order; a message can be written exactly if its integers fit their declared types; and the type codes are those of the protocol, one for each kind.",
  "all messages, with all object graphs in them; all byte strings for the UTF-8 part",
  "31 layouts times all field values; a test compares a few recorded messages.",
  [S+"types/_psrp.py", S+"_events.py", S+"_base.py: RunspacePool.prepare_message, _process_message"])
p("C55", "Bytes carry the protocol",
  "A client and a server that exchange nothing but the bytes of data_to_send, in payloads of any size, received and processed at any time, behave over one connection as if whole messages were handed over in order: their pools are those of a run with the same operations in the same order in which messages are never cut, reordered, lost or misread. So the limits agree, the opening handshake succeeds, host responses go to the right caller and the key exchange yields the same key, to the byte.",
  "all operations with all arguments on both sides, all payload sizes, all interleavings of sending, receiving and processing",
  "Composition of serializer, fragmenter, receiver and state machines over unbounded runs; tests exercise them one message at a time.",
  [S+"_base.py: RunspacePool.prepare_message, data_to_send, receive_data, next_event, _process_message", S+"_client.py: ClientRunspacePool", S+"_server.py: ServerRunspacePool"])
p("C56", "Error and informational records survive the way to the peer",
  "An ErrorRecord, or a debug, verbose or warning record, written by one side is read by the other with the same message, category, exception, target, id, details, stack trace and, if extended info was asked for, the same invocation; the text shown for it is the one set by hand, else the message of the details, else that of the exception; every record that can be made can be sent, read, and passed on again.",
  "all records, with every combination of optional parts; any number of hops",
  "Some thirty optional fields flattened to properties and rebuilt; tests read two or three recorded examples.",
  [S+"types/_complex.py: ScriptExtent, InvocationInfo, ErrorCategoryInfo, ErrorRecord, InformationalRecord", S+"_events.py: ErrorRecordEvent and siblings"])
p("C57", "Progress records survive the way to the peer",
  "A ProgressRecord is written as a PR element and read back, through the text of the document, as the same record.",
  "all records with numbers in range",
  "Arbitrary strings with escapes; optional parts.",
  [S+"types/_serializer.py: _Serializer.serialize, _deserialize_progress_record", S+"types/_complex.py: ProgressRecord"])
p("C58", "Arithmetic on dates and durations is exact",
  "Sums, differences, signs and comparisons in which a PSDuration or PSDateTime takes part, with each other or with Python's timedelta and datetime on either side, are those of the exact numbers of nanoseconds they stand for; an OverflowError comes exactly if the exact result is out of range; adding and subtracting the same duration gives the date back; and an operator's result does not depend on what was computed before.",
  "all durations and dates in range, with and without time zone, on either side of each operator; any sequence of calls",
  "Carries and borrows across 1000 ns, negative durations, mixed operand types and the ends of the range.",
  [S+"types/_primitive.py: PSDateTime, PSDuration, _ensure_types_and_self, _timedelta_total_nanoseconds"])
p("C59", "Instances are independent",
  "A new instance has the type names and properties of its class, and from then on instances share nothing with each other nor with classes: whatever a program does to other instances and to classes, every attribute, the type names and the properties of an instance stay as they were, and what is done to instances does not show in a class.",
  "all programs over any number of classes, instances, property objects and lists, with any getters and setters",
  "Sharing shows only in particular combinations of declarations, copies and later changes; tests look at one instance at a time.",
  [S+"types/_base.py: PSObject.__new__, PSObjectMeta.set_instance, PSPropertyInfo.copy, PSType.__call__, add_member"])
p("C60", "The default constructor",
  "PSObject.__init__ accepts a call exactly if there are no more positional values than properties, no property is given twice, no name is unknown, every mandatory property is given and every value can be cast; the new instance then reads each value given, cast to the type of its property, and the default for the others; an extended property takes precedence over an adapted one of the same name.",
  "all classes with any adapted and extended properties, all positional and keyword values",
  "Combinations of overlapping names, mandatory flags, types and ways to pass values.",
  [S+"types/_base.py: PSObject.__init__, PSPropertyInfo.set_value, get_value"])
p("C61", "Getters and setters are checked when they are given",
  "A callable is accepted as getter or setter exactly if it can be called with one or two positional arguments; reading or writing a script property never fails because of the signature.",
  "all Python signatures",
  "Five kinds of parameter with and without defaults in any number.",
  [S+"types/_base.py: PSPropertyInfo._validate_callable, getter, setter"])
p("C62", "Type names decide what an object is",
  "ps_isinstance holds exactly if one of the object's type names is the first name of one of the types asked about, up to the Deserialized prefix if asked to ignore it; a class declared with PSType has its own names followed by those of its base, so its instances are instances of the base; the first class registered for a name keeps it forever; the deserializer makes a blank instance of the class registered for the first name, and a PSObject with prefixed names otherwise, which still is an instance of these names if the prefix is ignored.",
  "all worlds of classes and instances, all type names, all later programs",
  "Depends on the order of registrations and on chains of inheritance.",
  [S+"types/_base.py: ps_isinstance, PSType.__call__, TypeRegistry.rehydrate"])
p("C63", "Documents of any writer are read safely",
  "Reading any sequence of CLIXML elements, well formed or not, comes to an end with values or with one of ValueError, KeyError, TypeError, AttributeError, OverflowError, UnicodeError and UnboundLocalError; what is read has no dangling reference; a Ref stands for the object that carried its number and a TNRef for the names that carried its number, whatever was read in between; containers and objects without type names get the .NET names of their element, items in document order, and of equal keys or property names the first place with the last value; an enumeration accepts its members only; unknown elements, numbers and missing attributes are refused.",
  "all element trees, all registries, all reader states",
  "The peer chooses the document; tests read documents PowerShell wrote.",
  [S+"types/_serializer.py: _Serializer.deserialize, _update_value_ref", S+"types/_base.py: TypeRegistry.rehydrate"])
p("C64", "Indexing reads and writes what the key means",
  "obj[key] of a list, dictionary, string or byte array reads the element, entry or slice Python's own sequence or mapping would give and obj[key] = value changes that element or entry and nothing else; a name that is no entry reads or writes the property; a key that means nothing raises IndexError, KeyError or TypeError as the built-in type does.",
  "all contents, all keys (names, numbers of either sign, slices with any bounds and step, other values), any attributes and properties",
  "Negative indices, empty slices, steps that do not divide the length, and names that are both entry and property.",
  [S+"types/_base.py: PSObject.__getitem__, __setitem__", S+"types/_collection.py: PSDictBase, _PSListBase", S+"types/_primitive.py: PSStringBase.__getitem__, PSByteArray.__getitem__"])
p("C65", "Host calls survive the wire",
  "A host call made through any helper of the server, written by the serializer to the bytes of a message, is read by the client as the same call id, method and arguments; so are the results of the client's helpers at the server, and the host information of a new runspace pool or pipeline.",
  "all requests, results and host information with texts and numbers that can be sent, all object graphs representing them, all registries",
  "Crosses the host helpers, the message classes, the serializer, XML and the decoding of events at once.",
  [S+"_host.py: ServerHostRequestor, ClientHostResponder", S+"_events.py: _decode_host_call_parameters, _decode_host_resp_result", S+"types/_host.py", S+"types/_serializer.py", S+"types/_psrp.py: RunspacePoolHostCall, RunspacePoolHostResponse"])
p("C66", "A pipeline reaches the server as it was built",
  "A pipeline with commands is written to the bytes of CREATE_PIPELINE and whatever bytes are written the server makes from them a pipeline with the same settings, host information and history, and the same commands in the same statements with the same parameters and the redirections its version knows; the parameter values are the caller's object graph with its sharing and cycles. A pipeline without commands is refused.",
  "all pipelines of any number of statements, commands and parameters, all object graphs as parameters, all peer versions, all registries; command texts of characters XML can hold",
  "Crosses commands, pipelines, the message class, the serializer and XML; tests send a few fixed pipelines with plain values.",
  [S+"_command.py: Command.ToPSObjectForRemoting, FromPSObjectForRemoting, __str__", S+"_pipeline.py: PowerShell.ToPSObjectForRemoting, FromPSObjectForRemoting", S+"types/_serializer.py: serialize", S+"_events.py: CreatePipelineEvent.pipeline"])
p("C67", "A pipeline holds what its calls said",
  "Whatever calls were made on any number of pipelines and Command objects, a pipeline holds exactly the commands added to it, in order, each with the parameters given to it in the order they were given, with the last word on whether it ends its statement, and with the last accepted redirection of every stream; parameters and statement ends go to the newest command of the pipeline; exactly the parameters without a command, the scope given with a Command object and redirections to other targets are refused, changing nothing; the server sees the same commands. Calls on one pipeline leave every other pipeline as it was.",
  "all sequences of calls, all pipelines, all commands",
  "Commands are mutable objects that pipelines share, and calls on several of them can be interleaved in any order.",
  [S+"_client.py: ClientPowerShell.add_command, add_script, add_parameter, add_parameters, add_argument, add_statement", S+"_command.py: Command.add_parameter, add_argument, add_parameters, redirect_error, redirect_all"])
p("C68", "Every date-time that can be created survives the wire",
  "Every PSDateTime that can be created, in any year from 1 to 9999, on a clock with any offset from UTC and with any nanosecond attribute, is read back from the text it is serialized to with the same fields and offset and the nanoseconds rounded down to hundreds.",
  "all dates, times, nanoseconds and offsets down to the microsecond, both ways platforms write years below 1000",
  "C18 covers the usual dates; early years, historical offsets and odd nanoseconds are exactly what tests leave out, and depend on the platform.",
  [S+"types/_serializer.py: _serialize_datetime, _deserialize_datetime", S+"types/_primitive.py: PSDateTime"])
p("C69", "The text of a date, duration or character says which one it is",
  "The text of a duration lists days, hours, minutes, seconds and fraction that add up to it, and different durations have different texts; the expression given by repr evaluates to the same duration. The text of a date-time shows its fields and its offset, and different date-times have different texts. A character made from a text or from UTF-8 bytes is the only character in it, and every character can be made from its own text.",
  "all durations, all date-times, all characters, all texts",
  "Injectivity over unbounded value sets; sign, plural and optional parts of the text interact.",
  [S+"types/_primitive.py: PSDuration.__str__, PSDuration.__repr__, PSDateTime.__str__, PSChar.__new__, PSChar.__str__"])
p("C70", "What the caller says to a pipeline is what the server is told",
  "For every history of calls on pipelines and commands, a pipeline with a command can be sent, and from any bytes sent for it the server makes a pipeline with exactly the commands that were added, in order, each with the parameters it was given (the caller's object graph), the last word on ending its statement, and the last accepted redirection of each stream the server's version knows, and with every option of the constructor, among them the apartment state the caller gave, or the pool's when none was given.",
  "all call histories, pipelines, options, object graphs, peer versions, bytes",
  "Composition of mutable builder, object graph, serializer and reader over unbounded call histories.",
  [S+"_client.py: ClientPowerShell", S+"_command.py: Command", S+"_pipeline.py: PowerShell", S+"_serializer.py"])
p("C71", "Integer texts mean what XML Schema says they mean",
  "The text of an integer or character element is taken exactly when it is an integer in the schema's sense (optional sign, ASCII digits, surrounding white space) that fits the type, and the value is that integer; every other text raises ValueError.",
  "all texts, all eight integer types and characters",
  "The set of accepted texts is infinite and decided by Python's int(), which knows more digits, spaces and separators than the schema.",
  [S+"types/_primitive.py: PSIntegerBase.__new__, PSChar.__new__", S+"types/_serializer.py: deserialize"])
p("C72", "The text of an object is the one that was set, else its class's, and it travels",
  "The text set on an object is its text; otherwise the first __str__ below PSObject says it; otherwise there is none and str() is the base's. str() shows the text of every object, terminates when the methods involved do, the text is sent as ToString and the receiver's object shows and sends on the same text. repr() lists every property once with the value an attribute access gives.",
  "all class hierarchies, all behaviours of user-written __str__ methods, all texts, all recursion limits, all property lists",
  "Quantifies over user code in subclasses and over recursion; tests use the library's own classes.",
  [S+"types/_base.py: PSObjectMeta.to_string, PSObjectMeta.set_instance, PSObject.__str__, PSObject.__repr__", S+"types/_serializer.py: serialize, deserialize"])
p("C73", "Duration texts mean what XML Schema says they mean",
  "The text of a duration element is taken exactly when it is an xs:dayTimeDuration of ticks, and the value is exactly its length, or OverflowError when Python cannot hold that length; every other text raises ValueError.",
  "all texts",
  "The set of accepted texts is infinite; a regular expression decides it, and the seconds go through a binary float whose rounding only shows at large values with long fractions.",
  [S+"types/_serializer.py: _deserialize_duration, _DURATION_PATTERN", S+"types/_primitive.py: PSDuration.__new__"])
p("C74", "Date-time texts mean what XML Schema says they mean",
  "The text of a date-time element is taken exactly when it is an xs:dateTime with a four-digit year, and all its fields, its fraction and its offset are the ones it says; every other text raises ValueError.",
  "all texts",
  "The set of accepted texts is infinite and decided by three regular expressions, two text rewrites at fixed positions and strptime; tests only try the texts the writer makes.",
  [S+"types/_serializer.py: _deserialize_datetime, _DATETIME_FRACTION_PATTERN, _DATETIME_TZ_OFFSET_PATTERN"])
p("C75", "GUID, version and boolean texts mean what .NET and XML Schema say they mean",
  "A GUID element is taken exactly when its text is what System.Guid writes (in either case), a version element exactly when its text is what System.Version writes, and the value is the one the text says; every other text raises ValueError. A boolean element is true exactly when its text is the true of xs:boolean.",
  "all texts",
  "The sets of accepted texts are infinite and decided by uuid.UUID, int(.., 16), a regular expression and str.lower; tests only try well-formed texts.",
  [S+"types/_primitive.py: PSGuid.__init__, PSVersion.__init__, _VERSION_PATTERN", S+"types/_serializer.py: deserialize"])
p("C76", "Byte array texts mean what XML Schema says they mean",
  "The text of a byte array element is taken exactly when it is an xs:base64Binary, and the bytes are the ones it says; every other text raises ValueError, so damage to a text is noticed.",
  "all texts",
  "The set of accepted texts is infinite; base64.b64decode in its default mode skips and drops characters, which tests with well-formed texts never show.",
  [S+"types/_serializer.py: deserialize", S+"_crypto.py: PSRemotingCrypto.decrypt", S+"_events.py: EncryptedSessionKeyEvent, PublicKeyEvent"])
p("C77", "A request for command metadata reaches the server as the caller asked",
  "Whatever names (one or a list), command types, namespaces and arguments a caller gives, the request is written and the server holds exactly the names, the command types, the namespaces and the arguments asked for, in order, and nothing where nothing was given; a null Name, which the protocol allows, is held as no names.",
  "all requests over all object graphs that can be sent",
  "Quantifies over all lists and object graphs; the code path goes through the constructor, typed property casts, the serializer and the event; the tests ask for one name.",
  [S+"_pipeline.py: GetMetadata", S+"_client.py: ClientGetCommandMetadata.__init__", S+"types/_psrp.py: GetCommandMetadata", S+"types/_base.py: PSPropertyInfo._cast", S+"_events.py: GetCommandMetadataEvent.pipeline"])
p("C78", "Error, debug, verbose and warning records reach the peer as bytes",
  "Every record that has what its properties need (C56) and holds only values that can be serialized is written, in a message of its own, with the state of a pipeline or of the pool, or in the answer to a host call. Whatever is written the peer reads as the same message with an object of the record's type that has exactly the flattened properties, in order, each with its value and type; from these it makes the record with the fields sent.",
  "all records over all object graphs that can be sent, all four carriers",
  "A record has over forty properties that are present or not depending on five fields, inside an arbitrary object graph; the tests send a few complete records.",
  [S+"types/_complex.py: ErrorRecord, InformationalRecord, InvocationInfo", S+"types/_serializer.py: serialize, deserialize", S+"_server.py: write_error, write_debug, write_verbose, write_warning", S+"_client.py: host_response", S+"_events.py: ErrorRecordEvent, PipelineStateEvent, RunspacePoolStateEvent"])
p("C79", "Objects with a ToPSObjectForRemoting hook keep their place in an object graph",
  "An object whose class has ToPSObjectForRemoting can stand anywhere in a graph: the graph is written to the end, the object arrives as what its hook returns with the type names and text of the original, it arrives once however often it is mentioned, and everything around it keeps its content and sharing.",
  "all finite heaps of objects, with cycles and sharing, and all sequences of values",
  "The hook is called anew at each mention, so sharing and termination depend on the shape of the whole graph; the tests serialize single records whose targets do not refer to them.",
  [S+"types/_serializer.py: _Serializer.serialize, _get_ref_id", S+"types/_complex.py: ErrorRecord.ToPSObjectForRemoting, InformationalRecord.ToPSObjectForRemoting"])
p("C80", "User events and information records reach the client as given, with defaults where nothing was given",
  "Every user event and every information record is written, and the client reads the identifier, source, sender, arguments, data, tags, time, user, computer and ids that were given; where a time, user, computer or id was not given it reads the server's own, 0 for the managed thread, and an empty list where no arguments or tags were given. A number outside its type is refused before anything is sent; a single tag may be given as a text.",
  "all events and records over all object graphs that can be sent, all surroundings",
  "Each of seven optional arguments is given or not, around arbitrary object graphs; the defaults depend on the machine, so tests check only that they are present.",
  [S+"_server.py: ServerRunspacePool.send_event, ServerPowerShell.write_information", S+"types/_complex.py: InformationRecord.create", S+"types/_psrp.py: UserEvent, InformationRecordMsg", S+"_events.py: UserEventEvent.event, InformationRecordEvent.record"])
p("C81", "Objects of classes with FromPSObjectForRemoting are transformed wherever they stand in a document",
  "Every Obj element of a class that has FromPSObjectForRemoting is read into what the method makes of the object with the declared and the given properties. Every reference to its number stands for that, inside the element as well. Reading ends with values or an ordinary exception when the methods do; nothing dangles when the methods leave nothing dangling; documents that name no such class are read as if there were no method.",
  "all documents, all reader states, all sets of methods",
  "Quantifies over documents of any writer and over arbitrary methods; the tests read single records that do not refer to themselves.",
  [S+"types/_serializer.py: _Serializer.deserialize, _update_value_ref", S+"types/_complex.py: ErrorRecord.FromPSObjectForRemoting, InformationalRecord.FromPSObjectForRemoting"])
p("C82", "What is read holds what the document says, at any depth, and stays as it is",
  "In documents as serializers write them (no Obj element around another object or a reference), every list, queue, table and plain object holds the values of its parts, each read in document order with everything before it known, whatever the parts are; references inside an element to its own number stand for it. Of equal keys or names the first place is kept, with the last value. What has been read stays as it is while more is read.",
  "all documents of any depth, all reader states, all methods that spare older objects",
  "Quantifies over documents of any depth with sharing and cycles; the tests read a few objects two levels deep.",
  [S+"types/_serializer.py: _Serializer.deserialize, _update_value_ref", S+"types/_base.py: add_note_property", S+"types/_complex.py: ErrorRecord.FromPSObjectForRemoting"])
p("C83", "Expressions over integers of fixed width keep value, type and range",
  "An expression of any shape over integers of the eight types and plain integers evaluates to its mathematical value with the type of the operand that has one, whatever the order of the operands, and is refused exactly when something with a type on the way does not fit that type.",
  "all expressions, all operators, all eight types, all integers",
  "Quantifies over expression trees of any depth with mixed operand types; the tests try single operators on a handful of values.",
  [S+"types/_primitive.py: PSIntegerBase.__new__, __add__, __pow__, __divmod__ and the other operator methods"])
p("C84", "Decimals survive the wire and are written as the schema asks for",
  "Every decimal, with its sign, digits and exponent, is read back exactly as it was written. The text of a decimal element is taken exactly when it is a decimal in Python's sense, and every xs:decimal is one, with as many places as it has. What is written for a decimal is an xs:decimal of the same number, and what is read is a number that System.Decimal holds.",
  "all decimals and all texts",
  "Quantifies over all coefficients, exponents and Unicode texts; the tests write a few decimals with two places.",
  [S+"types/_primitive.py: PSDecimal", S+"types/_serializer.py: _Serializer.serialize, _Serializer.deserialize"])
p("C85", "Floats survive the wire, rounded to the nearest when read, and are written as the schema asks for",
  "Every double, with its sign, is read back exactly as it was written, so no two are written alike; it is written with as few digits as are enough for that, never more than 17. The text of a float element is taken exactly when it says a number in Python's sense, and the result is the double nearest to that number, the even one of two, or an infinity when it is too large. Every xs:double is taken, what is written is an xs:double that stands for the same number, and what is read for a single is a number that System.Single holds.",
  "all doubles and all texts",
  "Quantifies over all 2^64 doubles and all Unicode texts of any length and exponent; the tests write a few floats with one or two places.",
  [S+"types/_primitive.py: PSSingle, PSDouble", S+"types/_serializer.py: _Serializer.serialize, _Serializer.deserialize"])
p("C86", "Every message type has one event class, whatever a program registers",
  "Every one of the message types becomes an event of the class named after it, with an object of the class that is sent under that type, and no event class is for two types. After any further declarations each type still has an event class, the last one registered for it; a class that cannot be used is refused with KeyError, and a class that is registered without an error is used.",
  "all message types, all sequences of declared message and event classes",
  "Quantifies over every sequence of decorator calls a program can make; the tests only use the classes of the package.",
  [S+"_events.py: PSRPEvent.create, RegisterEvent", S+"types/_psrp.py: PSRPMessageType.get_message_id, PSMessageType"])
p("C87", "An enumeration class holds values of its base type and nothing else",
  "A class of enumerations is made exactly when its base type is an integer type, no name is declared twice and every declared value can be one of that type; what goes wrong otherwise is a TypeError for the form and a ValueError for a value. All values of the class are in the range of its base type, also in classes derived from it. A value stands for the first name declared with it, a value that was not declared is refused, and every declared name leads to the same member as its value does.",
  "all base types, all lists of declared names and values, all values looked up",
  "Quantifies over every class body and every integer; tests declare a handful of classes with one or two members.",
  [S+"types/_enum.py: PSEnumMeta.__prepare__, PSEnumMeta.__new__", S+"types/_primitive.py: PSIntegerBase.__new__"])
p("C88", "Operators on members of an enumeration stay in the enumeration and agree with the integers",
  "Any row of the integer operators that starts at a member of an enumeration class gives, if it gives anything, the member whose value is what the operators come to on integers, with every step a member on the way. A result that no member has is refused with ValueError. Where an operator works on the integers of the base type it works on the members in the same way.",
  "all enumeration classes, all members, all rows of operators and int operands",
  "Quantifies over every class and every sequence of operators; the tests do not compute with members of enumerations.",
  [S+"types/_primitive.py: PSIntegerBase.__abs__ ... __xor__", S+"types/_enum.py: PSEnumMeta.__new__, PSEnumBase"])
p("C89", "Flags are closed under their operators, and inverting is its own inverse",
  "A number is a flag of a class exactly when all of its bits are in declared values, and any other is refused with ValueError. Or, and, xor of two flags of a class never fail, work bit by bit and give a flag of that class, also with any other integer as the second operand as long as the bits are those of the class. The inverse of a flag never fails and inverting twice gives the flag back.",
  "all flag classes with values that are not negative, all flags, all operands, all base types",
  "Quantifies over every set of declared values and every number; the tests combine a few flags of one class.",
  [S+"types/_enum.py: PSFlagBase.__or__, __and__, __xor__, __invert__, PSEnumMeta.__new__"])
p("C90", "Powers with a modulus are the congruent number of the type",
  "pow(x, n, m) on an integer type gives exactly the number between zero and m that is congruent to the power, or for a negative exponent the one whose product with the power of the opposite exponent is congruent to one, provided that it fits the type; everything else is a ValueError. With a modulus of the type it is always there, unless a negative exponent asks for an inverse that does not exist.",
  "all integer types, all bases, exponents and moduli",
  "Quantifies over all integers in three places; the tests use no modulus.",
  [S+"types/_primitive.py: PSIntegerBase.__pow__"])
with open(os.path.join(os.path.dirname(__file__), "..", "properties.jsonl"), "w") as f:
    for x in P:
        f.write(json.dumps(x, ensure_ascii=True) + "\n")
print(len(P))
