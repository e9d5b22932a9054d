{"id": "C01", "title": "Fragment wire format round-trips", "statement": "For every object id and fragment id below 2^64, every data block shorter than 2^32 bytes, either end flag, and any bytes that follow on the wire, unpacking what create_fragment produced returns exactly that object id, fragment id, data and end flag, with the start flag set exactly when the fragment id is 0; the encoding is 21 bytes plus the data. Values outside those ranges are rejected with an error instead of being truncated.", "quantifier": "all object ids, fragment ids, data blocks, end flags and trailing bytes", "why_tests_cant": "The id and length spaces are 2^64 and 2^32; byte order and masking errors only show at particular digits.", "anchors": ["src/psrpcore/_payload.py: create_fragment, unpack_fragment"]}
{"id": "C02", "title": "Message wire format round-trips", "statement": "For every message type, runspace pool id, optional pipeline id and payload, unpacking what create_message produced gives the same type, pool id, pipeline id and payload, and the destination is 2 for a client sender and 1 for a server sender. The only two normalisations are that an all-zero pipeline id reads back as no pipeline and that one UTF-8 byte order mark at the start of the payload is dropped. Input shorter than 40 bytes or with an unknown type is always an error.", "quantifier": "all 31 message types, all 128-bit ids, all payloads, all short or malformed inputs", "why_tests_cant": "Two 128-bit ids plus a payload; mixed-endian GUID swaps look right on palindromic test ids.", "anchors": ["src/psrpcore/_payload.py: create_message, unpack_message"]}
{"id": "C03", "title": "A payload never exceeds the requested size", "statement": "data_to_send(n) with n >= 22 returns either nothing or a payload of between 22 and n bytes; with n < 22 it raises and leaves everything queued unchanged; it returns nothing exactly when nothing is queued.", "quantifier": "all queues of messages in any partially sent condition, all amounts", "why_tests_cant": "Depends on the arithmetic of all remaining message lengths against the amount, including exact-fit boundaries.", "anchors": ["src/psrpcore/_base.py: RunspacePool.data_to_send", "src/psrpcore/_payload.py: PSRPMessage.fragment"]}
{"id": "C04", "title": "Sending always makes progress and drains", "statement": "Every data_to_send call that returns a payload sends at least one not-yet-sent message byte, for any amount >= 22, so calling it repeatedly empties the queue in at most as many calls as there are queued bytes, no matter how the amounts vary.", "quantifier": "all queues and all infinite sequences of amounts", "why_tests_cant": "A livelock needs a particular residue of message length against fragment overhead; no finite set of amounts covers it.", "anchors": ["src/psrpcore/_base.py: RunspacePool.data_to_send"]}
{"id": "C05", "title": "End-to-end delivery is exactly-once and in order", "statement": "If one peer queues any sequence of messages, interleaved in any way with data_to_send calls of any amounts, and the other peer is given the resulting payloads in order with next_event calls made at any points in between, then the messages the receiver obtains are always a prefix of the messages queued, byte-for-byte equal, in queue order, without loss or duplication; once everything is sent and received the sequences are equal.", "quantifier": "all interleavings of queue, send, transfer and receive steps; all message contents, targets and amounts", "why_tests_cant": "The schedule space is infinite and the state (partial fragments on both sides) is only exercised by particular interleavings.", "anchors": ["src/psrpcore/_base.py: RunspacePool.data_to_send, receive_data, next_event, prepare_message", "src/psrpcore/_payload.py"]}
{"id": "C06", "title": "A payload only carries data for one target", "statement": "All fragments inside one payload belong to messages for the same target (the runspace pool or one pipeline), and the payload's pipeline_id is that target.", "quantifier": "all queues of messages for any mix of targets, all amounts", "why_tests_cant": "Requires every mix of adjacent targets and fit conditions.", "anchors": ["src/psrpcore/_base.py: RunspacePool.data_to_send"]}
{"id": "C07", "title": "Fragment numbering on the wire", "statement": "Over the whole life of a connection the fragments sent for one message are numbered 0, 1, 2, ... without gaps, the first and only the first is marked start, exactly one - the last - is marked end, and their data concatenates to the message; different messages use different object ids.", "quantifier": "all schedules of queueing and sending with any amounts", "why_tests_cant": "It is a statement about whole histories of send calls.", "anchors": ["src/psrpcore/_base.py: RunspacePool.data_to_send, prepare_message", "src/psrpcore/_payload.py: PSRPMessage"]}
{"id": "C08", "title": "Lost, repeated or reordered fragments are never accepted silently", "statement": "A fragment whose number is not the next one expected for its object makes next_event raise; nothing is delivered because of it, the data already collected for every object and all completed messages are unchanged.", "quantifier": "all receiver states and all incoming fragments", "why_tests_cant": "The set of wrong fragment numbers and partial states is unbounded.", "anchors": ["src/psrpcore/_base.py: RunspacePool.next_event"]}
{"id": "C09", "title": "next_event is total on arbitrary bytes", "statement": "For any receive buffer whatever, next_event terminates with an event, with nothing, or with an error; it never reports an event that was not completed by an end fragment, and a trailing block shorter than a fragment header raises while keeping those bytes so that later data can complete them.", "quantifier": "all byte strings and all receiver states", "why_tests_cant": "Arbitrary hostile or truncated input.", "anchors": ["src/psrpcore/_base.py: RunspacePool.next_event", "src/psrpcore/_payload.py: unpack_fragment, unpack_message"]}
{"id": "C10", "title": "Chunking of received data does not matter", "statement": "Handing the bytes of a payload to the receiver in several receive_data calls, with next_event called in between, yields the same events as handing them over at once.", "quantifier": "all payload bytes and all ways of cutting them", "why_tests_cant": "Every cut position of every payload.", "anchors": ["src/psrpcore/_base.py: RunspacePool.receive_data, next_event", "src/psrpcore/_payload.py: unpack_fragment"]}
{"id": "C11", "title": "Interleaved objects reassemble independently", "statement": "If the fragments of several objects with different object ids arrive interleaved in any order that keeps each object's own fragments in sequence, every object is reassembled to exactly its own bytes, and messages come out in the order in which their last fragments arrived.", "quantifier": "all interleavings of any number of fragment sequences", "why_tests_cant": "The number of interleavings is exponential.", "anchors": ["src/psrpcore/_base.py: RunspacePool.next_event"]}
{"id": "C12", "title": "Prompt-response and default data are not mixed in one payload", "statement": "All messages inside one payload have the stream type the payload is labelled with.", "quantifier": "all queues and amounts", "why_tests_cant": "Needs a particular adjacency of queued messages.", "anchors": ["src/psrpcore/_base.py: RunspacePool.data_to_send", "src/psrpcore/_payload.py: StreamType"]}
{"id": "C13", "title": "String escaping round-trips", "statement": "Every string that is valid Unicode (no lone surrogates) survives CLIXML escaping followed by un-escaping unchanged, including strings that already contain text looking like an escape sequence in either letter case, control characters and characters outside the basic plane.", "quantifier": "all Unicode strings of any length", "why_tests_cant": "Escapes interact across character boundaries; the space of strings is infinite.", "anchors": ["src/psrpcore/types/_serializer.py: _serialize_string, _deserialize_string"]}
{"id": "C14", "title": "Escaped strings are safe to put in XML", "statement": "The escaped form of any string contains no C0/C1 control character, no surrogate and no character outside the basic plane.", "quantifier": "all strings", "why_tests_cant": "Every code point in every context.", "anchors": ["src/psrpcore/types/_serializer.py: _serialize_string"]}
{"id": "C15", "title": "Fixed-width integers round-trip and are range checked", "statement": "For each of the eight integer types, a value is accepted exactly when it lies in the type's range, and the text written for an accepted value reads back as the same value; arithmetic on these values never yields a value outside the range.", "quantifier": "all integers, all eight types, all operators", "why_tests_cant": "64-bit ranges with off-by-one boundaries.", "anchors": ["src/psrpcore/types/_primitive.py: PSIntegerBase, PSByte..PSInt64", "src/psrpcore/types/_serializer.py: _Serializer.serialize, deserialize"]}
{"id": "C16", "title": "Plain Python integers get a type that can hold them", "statement": "Serializing a plain Python int picks an integer element whose type can hold the value, so it reads back as the same number; numbers outside the 64-bit range are rejected.", "quantifier": "all integers", "why_tests_cant": "Boundary of the tag selection over an unbounded domain.", "anchors": ["src/psrpcore/types/_serializer.py: _Serializer.serialize (int branch)"]}
{"id": "C17", "title": "Durations round-trip to 100 ns", "statement": "Every duration survives serialization to XML duration text and back, rounded down to a multiple of 100 ns and otherwise unchanged, whatever its sign and size.", "quantifier": "all durations (all integers of nanoseconds)", "why_tests_cant": "The text form drops zero components and trailing zeros; failures are at particular values.", "anchors": ["src/psrpcore/types/_serializer.py: _serialize_duration, _deserialize_duration", "src/psrpcore/types/_primitive.py: PSDuration, _timedelta_total_nanoseconds"]}
{"id": "C18", "title": "Date-times round-trip", "statement": "Every date-time from year 1000 to 9999 with any microsecond, any 100 ns digit and no zone, UTC or any fixed whole-minute offset survives serialization and parsing with all fields equal.", "quantifier": "all dates, times, fractions and offsets", "why_tests_cant": "Product of calendar, fraction and offset; string slicing positions matter.", "anchors": ["src/psrpcore/types/_serializer.py: _serialize_datetime, _deserialize_datetime"]}
{"id": "C19", "title": "Version values round-trip and order consistently", "statement": "Every version of two to four non-negative components reads back from its own text with the same components, and the comparison operators define one total order (trichotomy, transitivity) that agrees with component order where missing components sort before present ones.", "quantifier": "all component tuples, all pairs and triples of versions", "why_tests_cant": "Order laws quantify over triples.", "anchors": ["src/psrpcore/types/_primitive.py: PSVersion"]}
{"id": "C20", "title": "Byte arrays and base64 text round-trip", "statement": "Every byte string survives base64 encoding and decoding; every other CLIXML text form with a fixed alphabet used here (GUID bytes in little-endian layout, characters as code unit numbers) is inverted exactly by its reader.", "quantifier": "all byte strings, all GUIDs, all UTF-16 code units", "why_tests_cant": "Length-dependent padding and mixed endianness.", "anchors": ["src/psrpcore/types/_serializer.py: _Serializer", "src/psrpcore/types/_primitive.py: PSByteArray, PSChar, PSGuid", "src/psrpcore/_payload.py: create_message"]}
{"id": "C21", "title": "CLIXML documents round-trip", "statement": "Any value built from null, booleans, the primitive types, lists, stacks, queues, dictionaries and objects with type names, adapted and extended properties, nested to any depth, is equal after serialize and deserialize, with the container kind, the type names, the property names and order, and the property kind preserved.", "quantifier": "all finite value trees", "why_tests_cant": "Unbounded nesting; references and type-name references carry state across the whole document.", "anchors": ["src/psrpcore/types/_serializer.py: _Serializer.serialize, deserialize"]}
{"id": "C22", "title": "Reference ids in a document are unique and resolvable", "statement": "In the output of one serializer every object element has a reference id no other object element of the document has, every Ref element names an object whose element starts earlier in the document, and every type-name reference names a type-name list that occurs earlier.", "quantifier": "all object graphs, including shared and repeated objects, and all sequences of values through one serializer", "why_tests_cant": "Global document property over unbounded graphs.", "anchors": ["src/psrpcore/types/_serializer.py: _Serializer._get_ref_id, serialize"]}
{"id": "C23", "title": "Shared objects stay shared and distinct objects stay distinct", "statement": "Two occurrences of the same object in one document become one object after deserialization, and two different objects stay two different objects with their own property values.", "quantifier": "all object graphs", "why_tests_cant": "Depends on global aliasing structure.", "anchors": ["src/psrpcore/types/_serializer.py: _Serializer._get_ref_id, _update_value_ref"]}
{"id": "C24", "title": "Type names survive type-name references", "statement": "Every object is read back with exactly the list of type names it was written with, also when an earlier object in the document had the same first type name.", "quantifier": "all documents and type-name lists", "why_tests_cant": "Needs two objects that agree on the first name and differ later.", "anchors": ["src/psrpcore/types/_serializer.py: _Serializer.serialize (TN/TNRef), deserialize"]}
{"id": "C25", "title": "Secure strings round-trip and need a key", "statement": "With any registered session key every string, including one with lone surrogates, decrypts to itself after encryption; the cipher text given to AES is a positive multiple of 16 bytes; with no key registered both directions raise and never produce output.", "quantifier": "all strings and all keys, for any block cipher that is a permutation on 16-byte blocks", "why_tests_cant": "Padding at every length modulo 16.", "anchors": ["src/psrpcore/_crypto.py: PSRemotingCrypto"]}
{"id": "C26", "title": "Session key exchange delivers the key", "statement": "For every public key and every session key, the blob the server builds from the client's public key message is decrypted by the client to exactly that session key, and the server reconstructs exactly the client's modulus and exponent from the public key blob, whatever leading or trailing zero bytes the numbers have.", "quantifier": "all moduli, exponents and session keys, for any RSA implementation that inverts", "why_tests_cant": "Big-endian/little-endian reversal bugs only show with zero bytes at the ends.", "anchors": ["src/psrpcore/_crypto.py: create_keypair, encrypt_session_key, decrypt_session_key"]}
{"id": "C27", "title": "Rejected pool operations have no effect", "statement": "Every runspace pool or pipeline operation that raises because of the current state leaves the pool, its pipelines, its counters and the send queue exactly as they were; each operation is accepted in exactly the states its documentation lists.", "quantifier": "all client and server states and all operations", "why_tests_cant": "All combinations of operation and state with arbitrary other content.", "anchors": ["src/psrpcore/_base.py: RunspacePool, Pipeline", "src/psrpcore/_client.py", "src/psrpcore/_server.py"]}
{"id": "C28", "title": "Call ids are unique for the life of a pool", "statement": "Every call id handed out by a pool differs from all call ids it handed out before, whatever operations, including failed ones, happen in between.", "quantifier": "all operation histories", "why_tests_cant": "Statement over unbounded histories.", "anchors": ["src/psrpcore/_base.py: _ci_counter", "src/psrpcore/_client.py", "src/psrpcore/_server.py: host_call, connect"]}
{"id": "C29", "title": "Runspace limits change exactly when the peer agreed", "statement": "On the client the maximum (minimum) number of runspaces changes only through a direct set before opening, an init-data message, or a positive answer to a set_max_runspaces (set_min_runspaces) call, and then becomes exactly the value given in the call that was answered, also with many calls outstanding and answers in any order; each outstanding call is consumed by its first answer.", "quantifier": "all histories with any number of outstanding calls and any answer order", "why_tests_cant": "Concurrency of outstanding calls.", "anchors": ["src/psrpcore/_client.py: set_max_runspaces, set_min_runspaces, _process_RunspaceAvailability, _set_runspaces_handler", "src/psrpcore/_server.py: runspace_availability_response"]}
{"id": "C30", "title": "Client and server agree on runspace limits when idle", "statement": "After the handshake, for any sequence of set_max/set_min calls and server answers carried over an in-order connection, whenever no request or answer is outstanding the client's and the server's minimum and maximum are equal.", "quantifier": "all interleavings of requests, deliveries and answers", "why_tests_cant": "Distributed two-party invariant over all schedules.", "anchors": ["src/psrpcore/_client.py", "src/psrpcore/_server.py"]}
{"id": "C31", "title": "The client tracks the server's pool state", "statement": "Over an in-order connection, whenever everything the server sent has been processed, the client's pool state equals the state the server last announced, and the server announces every state change except the disconnect/connect ones.", "quantifier": "all histories of server state changes and deliveries", "why_tests_cant": "Unbounded histories.", "anchors": ["src/psrpcore/_server.py: ServerRunspacePool._change_state", "src/psrpcore/_client.py: _process_RunspacePoolState"]}
{"id": "C32", "title": "Open handshake", "statement": "When a fresh client opens and a fresh server processes what it sent, in any interleaving of deliveries, both end in the Opened state with the client's pool id and runspace limits, and each holds the other's advertised protocol version; no other outcome is possible.", "quantifier": "all delivery schedules, all client configurations", "why_tests_cant": "All interleavings of the message exchange.", "anchors": ["src/psrpcore/_client.py: open", "src/psrpcore/_server.py: _process_SessionCapability, _process_InitRunspacePool"]}
{"id": "C33", "title": "Pipelines belong to the table exactly while they are open", "statement": "A pool's pipeline table contains exactly the pipelines created on it and not closed since; the pool cannot be closed while it is non-empty; data or state for one pipeline never alters another pipeline.", "quantifier": "all histories of pipeline creation, start, state messages and close", "why_tests_cant": "Unbounded histories with many pipelines.", "anchors": ["src/psrpcore/_base.py: Pipeline, RunspacePool.close", "src/psrpcore/_client.py: _process_PipelineState"]}
{"id": "C34", "title": "Host calls are answered at most once and to the right caller", "statement": "A response to a host call carries the same call id, method and pipeline as the call; once a response has been queued for a call another response to it raises and sends nothing; calls to void methods use call id -100 and are never tracked; if building a response fails the call can still be answered later.", "quantifier": "all histories of host calls and responses with any number outstanding", "why_tests_cant": "Ordering of outstanding calls is unbounded.", "anchors": ["src/psrpcore/_client.py: host_response, _process_PipelineHostCall, _process_RunspacePoolHostCall", "src/psrpcore/_server.py: host_call", "src/psrpcore/types/_host.py: HostMethodIdentifier.is_void"]}
{"id": "C35", "title": "Key exchange happens at most once and both sides end with the same key", "statement": "However often the client calls exchange_key and the server calls request_key, at most one public key is sent by a client and at most one request by a server, and once the answer is processed the client holds the server's session key.", "quantifier": "all interleavings of requests and deliveries", "why_tests_cant": "Races between both sides starting the exchange.", "anchors": ["src/psrpcore/_client.py: exchange_key, _process_PublicKeyRequest, _process_EncryptedSessionKey", "src/psrpcore/_server.py: request_key, _process_PublicKey"]}
{"id": "C36", "title": "Version-gated messages are never sent to old peers", "statement": "reset_runspace_state and write_information raise and send nothing unless the peer has announced protocol version 2.3 or later.", "quantifier": "all states and all announced versions", "why_tests_cant": "All version values, including none announced.", "anchors": ["src/psrpcore/_client.py: reset_runspace_state", "src/psrpcore/_server.py: write_information"]}
{"id": "C37", "title": "A pipeline's command list survives the wire", "statement": "For any list of commands with statement boundaries, parameters, scripts, local-scope settings and redirections, the server reconstructs from the create-pipeline message the same commands in the same statements with the same parameters and redirections (the last command always counts as ending its statement), when the peer speaks protocol 2.3.", "quantifier": "all command lists", "why_tests_cant": "Unbounded lists; statement grouping at boundaries.", "anchors": ["src/psrpcore/_pipeline.py: PowerShell", "src/psrpcore/_command.py: Command"]}
{"id": "C38", "title": "Stream redirections survive the wire at the protocol the peer speaks", "statement": "A redirection set with redirect_error/warning/verbose/debug/information/all is read back by a peer exactly when the negotiated protocol can carry it, and one that cannot be carried is dropped without changing any other setting.", "quantifier": "all sequences of redirect calls, all protocol versions", "why_tests_cant": "Combination of call histories and versions.", "anchors": ["src/psrpcore/_command.py: Command.redirect_*, ToPSObjectForRemoting, FromPSObjectForRemoting"]}
{"id": "C39", "title": "Property lists stay free of duplicates", "statement": "Starting from an object without duplicate property names, any sequence of member additions leaves at most one property per name in each property list; adding an existing name without force raises and changes nothing, with force replaces exactly that property.", "quantifier": "all objects and all sequences of additions", "why_tests_cant": "Unbounded sequences.", "anchors": ["src/psrpcore/types/_base.py: add_member, add_note_property"]}
{"id": "C40", "title": "Attribute reads return the last value written", "statement": "Reading a settable property of an object returns the value of the last write to it, writes to one property never change another, and properties shadow each other in the documented order (extended before adapted).", "quantifier": "all objects and all sequences of reads and writes", "why_tests_cant": "Unbounded sequences; shadowing combinations.", "anchors": ["src/psrpcore/types/_base.py: PSObject.__getattribute__, __setattr__, PSPropertyInfo"]}
{"id": "C41", "title": "Two-dimensional buffers survive packing", "statement": "A rectangular non-empty grid of cells packed for a host call is unpacked to the same grid.", "quantifier": "all grid sizes and contents", "why_tests_cant": "Row/column swaps are invisible on square or uniform grids.", "anchors": ["src/psrpcore/_host.py: _create_multi_dimensional_array", "src/psrpcore/_events.py: _unpack_multi_dimensional_array"]}
{"id": "C42", "title": "Host method parameters and results survive encoding", "statement": "For each host method that converts its parameters or result, decoding what the sending helper encoded gives back the original arguments.", "quantifier": "all methods and all argument values", "why_tests_cant": "56 methods with argument-position conventions.", "anchors": ["src/psrpcore/_host.py: ServerHostRequestor, ClientHostResponder", "src/psrpcore/_events.py: _decode_host_call_parameters, _decode_host_resp_result", "src/psrpcore/types/_host.py"]}
{"id": "C43", "title": "CLIXML shell output carries its header exactly once", "statement": "Everything data_to_send of a CLIXML shell returns over its life, concatenated, is the CLIXML header once, first, followed by the documents for the written values in order; nothing queued means nothing is returned.", "quantifier": "all sequences of writes and data_to_send calls", "why_tests_cant": "Order of an empty data_to_send call before the first write.", "anchors": ["src/psrpcore/_clixml_shell.py: ClixmlShell.data_to_send, write_*"]}
{"id": "C44", "title": "Lists of values with stream labels survive CLIXML text", "statement": "serialize_clixml followed by deserialize_clixml with preserve_streams returns the same list of values with the same stream labels.", "quantifier": "all lists, including the empty list", "why_tests_cant": "List structure and string surgery on the document header.", "anchors": ["src/psrpcore/types/_serializer.py: serialize_clixml, deserialize_clixml"]}
{"id": "C45", "title": "Flag enumerations name their members", "statement": "The text written for a flag value lists exactly the named members contained in it, in definition order, and the zero member only when it is the only one.", "quantifier": "all flag types and all combinations of members", "why_tests_cant": "Exponential combinations.", "anchors": ["src/psrpcore/types/_serializer.py: _serialize_enum_to_string", "src/psrpcore/types/_enum.py"]}
{"id": "C46", "title": "Serializing does not change the value", "statement": "Serializing a value leaves the value unchanged, so serializing it again gives the same document.", "quantifier": "all values", "why_tests_cant": "Needs each container kind at any depth.", "anchors": ["src/psrpcore/types/_serializer.py: _Serializer.serialize (queue branch)"]}
{"id": "C47", "title": "Padding is inverted exactly and malformed padding is rejected", "statement": "PKCS#7 padding adds between 1 and 16 bytes, un-padding inverts it for every input, and un-padding accepts only byte strings that some input pads to.", "quantifier": "all byte strings", "why_tests_cant": "All lengths and all last bytes.", "anchors": ["src/psrpcore/_crypto.py: PSRemotingCrypto.encrypt, decrypt"]}
{"id": "C48", "title": "Host information survives the wire", "statement": "The host flags and the default host data (colours, positions, sizes, title) read by the server are those the client sent, each in its own field.", "quantifier": "all host information values", "why_tests_cant": "Ten positional entries, several of the same type.", "anchors": ["src/psrpcore/types/_host.py: HostInfo, HostDefaultData"]}
{"id": "C49", "title": "CLIXML output is read back stream by stream", "statement": "ClixmlOutput.from_clixml applied to what a CLIXML shell sends returns, for each stream, the values written to it in the order of writing; progress values give the records passed to write_progress; values of different streams never mix.", "quantifier": "all sequences of writes to all streams", "why_tests_cant": "Interleavings of seven streams with arbitrary object graphs.", "anchors": ["src/psrpcore/_clixml_shell.py: ClixmlOutput.from_clixml, ClixmlShell"]}
{"id": "C50", "title": "The local crypto provider inverts itself", "statement": "decrypt(encrypt(s)) == s for the provider used with CLIXML files on platforms without DPAPI, and the cipher text is upper-case hex, four digits for each UTF-16 code unit.", "quantifier": "all str, including lone surrogates", "why_tests_cant": "Unbounded strings; surrogates.", "anchors": ["src/psrpcore/_clixml_shell.py: LocalCryptoProvider"]}
{"id": "C51", "title": "What is written has the documented form", "statement": "Every value is written as an element of the CLIXML grammar ([MS-PSRP] 2.2.5): the element name of its type, RefId and N attributes, type names, adapted and extended properties, container body and ToString in that order, and scalar texts in the lexical form of their XML type (decimal numerals without leading zeros, 8-4-4-4-12 lower-case GUIDs, base64, xs:dateTime, xs:duration, _xHHHH_ escapes); a document is the written form of such elements in one Objs element.", "quantifier": "all heaps, all values, all documents", "why_tests_cant": "A round trip through the same library hides mistakes made the same way on both sides.", "anchors": ["src/psrpcore/types/_serializer.py: serialize, _Serializer.serialize", "src/psrpcore/_clixml_shell.py: serialize_clixml"]}
{"id": "C52", "title": "What every operation and every message does", "statement": "Each successful operation of a client or server pool and its pipelines, and each processed message, queues exactly the messages the protocol prescribes for it, with target, stream, pool id and consecutive object ids, moves the pool and the named pipeline to the prescribed state and leaves every other pipeline alone. Over a whole history a side sends only messages of its own direction, a message names a pipeline exactly if it belongs to one, host calls and responses and nothing else are on the prompt stream, and object ids count up from 1.", "quantifier": "all pools, all operations with all arguments, all messages, all histories", "why_tests_cant": "Thirty kinds of operation and as many messages; a test looks at the message it expects, not at the absence of others.", "anchors": ["src/psrpcore/_client.py: ClientRunspacePool, _ClientPipeline", "src/psrpcore/_server.py: ServerRunspacePool, ServerPipeline", "src/psrpcore/_base.py: RunspacePool.prepare_message, _process_message"]}
{"id": "C53", "title": "The messages of a pipeline come in order", "statement": "A server sends output, records and host calls of a pipeline only while the state it announced last for that pipeline is Running, and that state is the pipeline's; a client sends input and end of input only after the message that creates the pipeline, and no input after the end of input.", "quantifier": "all histories of operations and received messages, any number of pipelines", "why_tests_cant": "Interleavings of several pipelines started, stopped and restarted in any order.", "anchors": ["src/psrpcore/_server.py: ServerPipeline", "src/psrpcore/_client.py: _ClientPipeline, ClientPowerShell.send, send_eof"]}
{"id": "C54", "title": "Every message is read back from its bytes", "statement": "For each of the 31 kinds of message, the bytes made from a message (CLIXML in UTF-8) are read back, given the type code, as a message of the same kind with the same fields; the object handed to the serializer has exactly the documented properties in the documented order; a message can be written exactly if its integers fit their declared types; and the type codes are those of the protocol, one for each kind.", "quantifier": "all messages, with all object graphs in them; all byte strings for the UTF-8 part", "why_tests_cant": "31 layouts times all field values; a test compares a few recorded messages.", "anchors": ["src/psrpcore/types/_psrp.py", "src/psrpcore/_events.py", "src/psrpcore/_base.py: RunspacePool.prepare_message, _process_message"]}
{"id": "C55", "title": "Bytes carry the protocol", "statement": "A client and a server that exchange nothing but the bytes of data_to_send, in payloads of any size, received and processed at any time, behave over one connection as if whole messages were handed over in order: their pools are those of a run with the same operations in the same order in which messages are never cut, reordered, lost or misread. So the limits agree, the opening handshake succeeds, host responses go to the right caller and the key exchange yields the same key, to the byte.", "quantifier": "all operations with all arguments on both sides, all payload sizes, all interleavings of sending, receiving and processing", "why_tests_cant": "Composition of serializer, fragmenter, receiver and state machines over unbounded runs; tests exercise them one message at a time.", "anchors": ["src/psrpcore/_base.py: RunspacePool.prepare_message, data_to_send, receive_data, next_event, _process_message", "src/psrpcore/_client.py: ClientRunspacePool", "src/psrpcore/_server.py: ServerRunspacePool"]}
{"id": "C56", "title": "Error and informational records survive the way to the peer", "statement": "An ErrorRecord, or a debug, verbose or warning record, written by one side is read by the other with the same message, category, exception, target, id, details, stack trace and, if extended info was asked for, the same invocation; the text shown for it is the one set by hand, else the message of the details, else that of the exception; every record that can be made can be sent, read, and passed on again.", "quantifier": "all records, with every combination of optional parts; any number of hops", "why_tests_cant": "Some thirty optional fields flattened to properties and rebuilt; tests read two or three recorded examples.", "anchors": ["src/psrpcore/types/_complex.py: ScriptExtent, InvocationInfo, ErrorCategoryInfo, ErrorRecord, InformationalRecord", "src/psrpcore/_events.py: ErrorRecordEvent and siblings"]}
{"id": "C57", "title": "Progress records survive the way to the peer", "statement": "A ProgressRecord is written as a PR element and read back, through the text of the document, as the same record.", "quantifier": "all records with numbers in range", "why_tests_cant": "Arbitrary strings with escapes; optional parts.", "anchors": ["src/psrpcore/types/_serializer.py: _Serializer.serialize, _deserialize_progress_record", "src/psrpcore/types/_complex.py: ProgressRecord"]}
{"id": "C58", "title": "Arithmetic on dates and durations is exact", "statement": "Sums, differences, signs and comparisons in which a PSDuration or PSDateTime takes part, with each other or with Python's timedelta and datetime on either side, are those of the exact numbers of nanoseconds they stand for; an OverflowError comes exactly if the exact result is out of range; adding and subtracting the same duration gives the date back; and an operator's result does not depend on what was computed before.", "quantifier": "all durations and dates in range, with and without time zone, on either side of each operator; any sequence of calls", "why_tests_cant": "Carries and borrows across 1000 ns, negative durations, mixed operand types and the ends of the range.", "anchors": ["src/psrpcore/types/_primitive.py: PSDateTime, PSDuration, _ensure_types_and_self, _timedelta_total_nanoseconds"]}
{"id": "C59", "title": "Instances are independent", "statement": "A new instance has the type names and properties of its class, and from then on instances share nothing with each other nor with classes: whatever a program does to other instances and to classes, every attribute, the type names and the properties of an instance stay as they were, and what is done to instances does not show in a class.", "quantifier": "all programs over any number of classes, instances, property objects and lists, with any getters and setters", "why_tests_cant": "Sharing shows only in particular combinations of declarations, copies and later changes; tests look at one instance at a time.", "anchors": ["src/psrpcore/types/_base.py: PSObject.__new__, PSObjectMeta.set_instance, PSPropertyInfo.copy, PSType.__call__, add_member"]}
{"id": "C60", "title": "The default constructor", "statement": "PSObject.__init__ accepts a call exactly if there are no more positional values than properties, no property is given twice, no name is unknown, every mandatory property is given and every value can be cast; the new instance then reads each value given, cast to the type of its property, and the default for the others; an extended property takes precedence over an adapted one of the same name.", "quantifier": "all classes with any adapted and extended properties, all positional and keyword values", "why_tests_cant": "Combinations of overlapping names, mandatory flags, types and ways to pass values.", "anchors": ["src/psrpcore/types/_base.py: PSObject.__init__, PSPropertyInfo.set_value, get_value"]}
{"id": "C61", "title": "Getters and setters are checked when they are given", "statement": "A callable is accepted as getter or setter exactly if it can be called with one or two positional arguments; reading or writing a script property never fails because of the signature.", "quantifier": "all Python signatures", "why_tests_cant": "Five kinds of parameter with and without defaults in any number.", "anchors": ["src/psrpcore/types/_base.py: PSPropertyInfo._validate_callable, getter, setter"]}
{"id": "C62", "title": "Type names decide what an object is", "statement": "ps_isinstance holds exactly if one of the object's type names is the first name of one of the types asked about, up to the Deserialized prefix if asked to ignore it; a class declared with PSType has its own names followed by those of its base, so its instances are instances of the base; the first class registered for a name keeps it forever; the deserializer makes a blank instance of the class registered for the first name, and a PSObject with prefixed names otherwise, which still is an instance of these names if the prefix is ignored.", "quantifier": "all worlds of classes and instances, all type names, all later programs", "why_tests_cant": "Depends on the order of registrations and on chains of inheritance.", "anchors": ["src/psrpcore/types/_base.py: ps_isinstance, PSType.__call__, TypeRegistry.rehydrate"]}
{"id": "C63", "title": "Documents of any writer are read safely", "statement": "Reading any sequence of CLIXML elements, well formed or not, comes to an end with values or with one of ValueError, KeyError, TypeError, AttributeError, OverflowError, UnicodeError and UnboundLocalError; what is read has no dangling reference; a Ref stands for the object that carried its number and a TNRef for the names that carried its number, whatever was read in between; containers and objects without type names get the .NET names of their element, items in document order, and of equal keys or property names the first place with the last value; an enumeration accepts its members only; unknown elements, numbers and missing attributes are refused.", "quantifier": "all element trees, all registries, all reader states", "why_tests_cant": "The peer chooses the document; tests read documents PowerShell wrote.", "anchors": ["src/psrpcore/types/_serializer.py: _Serializer.deserialize, _update_value_ref", "src/psrpcore/types/_base.py: TypeRegistry.rehydrate"]}
{"id": "C64", "title": "Indexing reads and writes what the key means", "statement": "obj[key] of a list, dictionary, string or byte array reads the element, entry or slice Python's own sequence or mapping would give and obj[key] = value changes that element or entry and nothing else; a name that is no entry reads or writes the property; a key that means nothing raises IndexError, KeyError or TypeError as the built-in type does.", "quantifier": "all contents, all keys (names, numbers of either sign, slices with any bounds and step, other values), any attributes and properties", "why_tests_cant": "Negative indices, empty slices, steps that do not divide the length, and names that are both entry and property.", "anchors": ["src/psrpcore/types/_base.py: PSObject.__getitem__, __setitem__", "src/psrpcore/types/_collection.py: PSDictBase, _PSListBase", "src/psrpcore/types/_primitive.py: PSStringBase.__getitem__, PSByteArray.__getitem__"]}
{"id": "C65", "title": "Host calls survive the wire", "statement": "A host call made through any helper of the server, written by the serializer to the bytes of a message, is read by the client as the same call id, method and arguments; so are the results of the client's helpers at the server, and the host information of a new runspace pool or pipeline.", "quantifier": "all requests, results and host information with texts and numbers that can be sent, all object graphs representing them, all registries", "why_tests_cant": "Crosses the host helpers, the message classes, the serializer, XML and the decoding of events at once.", "anchors": ["src/psrpcore/_host.py: ServerHostRequestor, ClientHostResponder", "src/psrpcore/_events.py: _decode_host_call_parameters, _decode_host_resp_result", "src/psrpcore/types/_host.py", "src/psrpcore/types/_serializer.py", "src/psrpcore/types/_psrp.py: RunspacePoolHostCall, RunspacePoolHostResponse"]}
{"id": "C66", "title": "A pipeline reaches the server as it was built", "statement": "A pipeline with commands is written to the bytes of CREATE_PIPELINE and whatever bytes are written the server makes from them a pipeline with the same settings, host information and history, and the same commands in the same statements with the same parameters and the redirections its version knows; the parameter values are the caller's object graph with its sharing and cycles. A pipeline without commands is refused.", "quantifier": "all pipelines of any number of statements, commands and parameters, all object graphs as parameters, all peer versions, all registries; command texts of characters XML can hold", "why_tests_cant": "Crosses commands, pipelines, the message class, the serializer and XML; tests send a few fixed pipelines with plain values.", "anchors": ["src/psrpcore/_command.py: Command.ToPSObjectForRemoting, FromPSObjectForRemoting, __str__", "src/psrpcore/_pipeline.py: PowerShell.ToPSObjectForRemoting, FromPSObjectForRemoting", "src/psrpcore/types/_serializer.py: serialize", "src/psrpcore/_events.py: CreatePipelineEvent.pipeline"]}
{"id": "C67", "title": "A pipeline holds what its calls said", "statement": "Whatever calls were made on any number of pipelines and Command objects, a pipeline holds exactly the commands added to it, in order, each with the parameters given to it in the order they were given, with the last word on whether it ends its statement, and with the last accepted redirection of every stream; parameters and statement ends go to the newest command of the pipeline; exactly the parameters without a command, the scope given with a Command object and redirections to other targets are refused, changing nothing; the server sees the same commands. Calls on one pipeline leave every other pipeline as it was.", "quantifier": "all sequences of calls, all pipelines, all commands", "why_tests_cant": "Commands are mutable objects that pipelines share, and calls on several of them can be interleaved in any order.", "anchors": ["src/psrpcore/_client.py: ClientPowerShell.add_command, add_script, add_parameter, add_parameters, add_argument, add_statement", "src/psrpcore/_command.py: Command.add_parameter, add_argument, add_parameters, redirect_error, redirect_all"]}
{"id": "C68", "title": "Every date-time that can be created survives the wire", "statement": "Every PSDateTime that can be created, in any year from 1 to 9999, on a clock with any offset from UTC and with any nanosecond attribute, is read back from the text it is serialized to with the same fields and offset and the nanoseconds rounded down to hundreds.", "quantifier": "all dates, times, nanoseconds and offsets down to the microsecond, both ways platforms write years below 1000", "why_tests_cant": "C18 covers the usual dates; early years, historical offsets and odd nanoseconds are exactly what tests leave out, and depend on the platform.", "anchors": ["src/psrpcore/types/_serializer.py: _serialize_datetime, _deserialize_datetime", "src/psrpcore/types/_primitive.py: PSDateTime"]}
{"id": "C69", "title": "The text of a date, duration or character says which one it is", "statement": "The text of a duration lists days, hours, minutes, seconds and fraction that add up to it, and different durations have different texts; the expression given by repr evaluates to the same duration. The text of a date-time shows its fields and its offset, and different date-times have different texts. A character made from a text or from UTF-8 bytes is the only character in it, and every character can be made from its own text.", "quantifier": "all durations, all date-times, all characters, all texts", "why_tests_cant": "Injectivity over unbounded value sets; sign, plural and optional parts of the text interact.", "anchors": ["src/psrpcore/types/_primitive.py: PSDuration.__str__, PSDuration.__repr__, PSDateTime.__str__, PSChar.__new__, PSChar.__str__"]}
{"id": "C70", "title": "What the caller says to a pipeline is what the server is told", "statement": "For every history of calls on pipelines and commands, a pipeline with a command can be sent, and from any bytes sent for it the server makes a pipeline with exactly the commands that were added, in order, each with the parameters it was given (the caller's object graph), the last word on ending its statement, and the last accepted redirection of each stream the server's version knows, and with every option of the constructor, among them the apartment state the caller gave, or the pool's when none was given.", "quantifier": "all call histories, pipelines, options, object graphs, peer versions, bytes", "why_tests_cant": "Composition of mutable builder, object graph, serializer and reader over unbounded call histories.", "anchors": ["src/psrpcore/_client.py: ClientPowerShell", "src/psrpcore/_command.py: Command", "src/psrpcore/_pipeline.py: PowerShell", "src/psrpcore/_serializer.py"]}
{"id": "C71", "title": "Integer texts mean what XML Schema says they mean", "statement": "The text of an integer or character element is taken exactly when it is an integer in the schema's sense (optional sign, ASCII digits, surrounding white space) that fits the type, and the value is that integer; every other text raises ValueError.", "quantifier": "all texts, all eight integer types and characters", "why_tests_cant": "The set of accepted texts is infinite and decided by Python's int(), which knows more digits, spaces and separators than the schema.", "anchors": ["src/psrpcore/types/_primitive.py: PSIntegerBase.__new__, PSChar.__new__", "src/psrpcore/types/_serializer.py: deserialize"]}
{"id": "C72", "title": "The text of an object is the one that was set, else its class's, and it travels", "statement": "The text set on an object is its text; otherwise the first __str__ below PSObject says it; otherwise there is none and str() is the base's. str() shows the text of every object, terminates when the methods involved do, the text is sent as ToString and the receiver's object shows and sends on the same text. repr() lists every property once with the value an attribute access gives.", "quantifier": "all class hierarchies, all behaviours of user-written __str__ methods, all texts, all recursion limits, all property lists", "why_tests_cant": "Quantifies over user code in subclasses and over recursion; tests use the library's own classes.", "anchors": ["src/psrpcore/types/_base.py: PSObjectMeta.to_string, PSObjectMeta.set_instance, PSObject.__str__, PSObject.__repr__", "src/psrpcore/types/_serializer.py: serialize, deserialize"]}
{"id": "C73", "title": "Duration texts mean what XML Schema says they mean", "statement": "The text of a duration element is taken exactly when it is an xs:dayTimeDuration of ticks, and the value is exactly its length, or OverflowError when Python cannot hold that length; every other text raises ValueError.", "quantifier": "all texts", "why_tests_cant": "The set of accepted texts is infinite; a regular expression decides it, and the seconds go through a binary float whose rounding only shows at large values with long fractions.", "anchors": ["src/psrpcore/types/_serializer.py: _deserialize_duration, _DURATION_PATTERN", "src/psrpcore/types/_primitive.py: PSDuration.__new__"]}
{"id": "C74", "title": "Date-time texts mean what XML Schema says they mean", "statement": "The text of a date-time element is taken exactly when it is an xs:dateTime with a four-digit year, and all its fields, its fraction and its offset are the ones it says; every other text raises ValueError.", "quantifier": "all texts", "why_tests_cant": "The set of accepted texts is infinite and decided by three regular expressions, two text rewrites at fixed positions and strptime; tests only try the texts the writer makes.", "anchors": ["src/psrpcore/types/_serializer.py: _deserialize_datetime, _DATETIME_FRACTION_PATTERN, _DATETIME_TZ_OFFSET_PATTERN"]}
{"id": "C75", "title": "GUID, version and boolean texts mean what .NET and XML Schema say they mean", "statement": "A GUID element is taken exactly when its text is what System.Guid writes (in either case), a version element exactly when its text is what System.Version writes, and the value is the one the text says; every other text raises ValueError. A boolean element is true exactly when its text is the true of xs:boolean.", "quantifier": "all texts", "why_tests_cant": "The sets of accepted texts are infinite and decided by uuid.UUID, int(.., 16), a regular expression and str.lower; tests only try well-formed texts.", "anchors": ["src/psrpcore/types/_primitive.py: PSGuid.__init__, PSVersion.__init__, _VERSION_PATTERN", "src/psrpcore/types/_serializer.py: deserialize"]}
{"id": "C76", "title": "Byte array texts mean what XML Schema says they mean", "statement": "The text of a byte array element is taken exactly when it is an xs:base64Binary, and the bytes are the ones it says; every other text raises ValueError, so damage to a text is noticed.", "quantifier": "all texts", "why_tests_cant": "The set of accepted texts is infinite; base64.b64decode in its default mode skips and drops characters, which tests with well-formed texts never show.", "anchors": ["src/psrpcore/types/_serializer.py: deserialize", "src/psrpcore/_crypto.py: PSRemotingCrypto.decrypt", "src/psrpcore/_events.py: EncryptedSessionKeyEvent, PublicKeyEvent"]}
{"id": "C77", "title": "A request for command metadata reaches the server as the caller asked", "statement": "Whatever names (one or a list), command types, namespaces and arguments a caller gives, the request is written and the server holds exactly the names, the command types, the namespaces and the arguments asked for, in order, and nothing where nothing was given; a null Name, which the protocol allows, is held as no names.", "quantifier": "all requests over all object graphs that can be sent", "why_tests_cant": "Quantifies over all lists and object graphs; the code path goes through the constructor, typed property casts, the serializer and the event; the tests ask for one name.", "anchors": ["src/psrpcore/_pipeline.py: GetMetadata", "src/psrpcore/_client.py: ClientGetCommandMetadata.__init__", "src/psrpcore/types/_psrp.py: GetCommandMetadata", "src/psrpcore/types/_base.py: PSPropertyInfo._cast", "src/psrpcore/_events.py: GetCommandMetadataEvent.pipeline"]}
{"id": "C78", "title": "Error, debug, verbose and warning records reach the peer as bytes", "statement": "Every record that has what its properties need (C56) and holds only values that can be serialized is written, in a message of its own, with the state of a pipeline or of the pool, or in the answer to a host call. Whatever is written the peer reads as the same message with an object of the record's type that has exactly the flattened properties, in order, each with its value and type; from these it makes the record with the fields sent.", "quantifier": "all records over all object graphs that can be sent, all four carriers", "why_tests_cant": "A record has over forty properties that are present or not depending on five fields, inside an arbitrary object graph; the tests send a few complete records.", "anchors": ["src/psrpcore/types/_complex.py: ErrorRecord, InformationalRecord, InvocationInfo", "src/psrpcore/types/_serializer.py: serialize, deserialize", "src/psrpcore/_server.py: write_error, write_debug, write_verbose, write_warning", "src/psrpcore/_client.py: host_response", "src/psrpcore/_events.py: ErrorRecordEvent, PipelineStateEvent, RunspacePoolStateEvent"]}
{"id": "C79", "title": "Objects with a ToPSObjectForRemoting hook keep their place in an object graph", "statement": "An object whose class has ToPSObjectForRemoting can stand anywhere in a graph: the graph is written to the end, the object arrives as what its hook returns with the type names and text of the original, it arrives once however often it is mentioned, and everything around it keeps its content and sharing.", "quantifier": "all finite heaps of objects, with cycles and sharing, and all sequences of values", "why_tests_cant": "The hook is called anew at each mention, so sharing and termination depend on the shape of the whole graph; the tests serialize single records whose targets do not refer to them.", "anchors": ["src/psrpcore/types/_serializer.py: _Serializer.serialize, _get_ref_id", "src/psrpcore/types/_complex.py: ErrorRecord.ToPSObjectForRemoting, InformationalRecord.ToPSObjectForRemoting"]}
{"id": "C80", "title": "User events and information records reach the client as given, with defaults where nothing was given", "statement": "Every user event and every information record is written, and the client reads the identifier, source, sender, arguments, data, tags, time, user, computer and ids that were given; where a time, user, computer or id was not given it reads the server's own, 0 for the managed thread, and an empty list where no arguments or tags were given. A number outside its type is refused before anything is sent; a single tag may be given as a text.", "quantifier": "all events and records over all object graphs that can be sent, all surroundings", "why_tests_cant": "Each of seven optional arguments is given or not, around arbitrary object graphs; the defaults depend on the machine, so tests check only that they are present.", "anchors": ["src/psrpcore/_server.py: ServerRunspacePool.send_event, ServerPowerShell.write_information", "src/psrpcore/types/_complex.py: InformationRecord.create", "src/psrpcore/types/_psrp.py: UserEvent, InformationRecordMsg", "src/psrpcore/_events.py: UserEventEvent.event, InformationRecordEvent.record"]}
{"id": "C81", "title": "Objects of classes with FromPSObjectForRemoting are transformed wherever they stand in a document", "statement": "Every Obj element of a class that has FromPSObjectForRemoting is read into what the method makes of the object with the declared and the given properties. Every reference to its number stands for that, inside the element as well. Reading ends with values or an ordinary exception when the methods do; nothing dangles when the methods leave nothing dangling; documents that name no such class are read as if there were no method.", "quantifier": "all documents, all reader states, all sets of methods", "why_tests_cant": "Quantifies over documents of any writer and over arbitrary methods; the tests read single records that do not refer to themselves.", "anchors": ["src/psrpcore/types/_serializer.py: _Serializer.deserialize, _update_value_ref", "src/psrpcore/types/_complex.py: ErrorRecord.FromPSObjectForRemoting, InformationalRecord.FromPSObjectForRemoting"]}
{"id": "C82", "title": "What is read holds what the document says, at any depth, and stays as it is", "statement": "In documents as serializers write them (no Obj element around another object or a reference), every list, queue, table and plain object holds the values of its parts, each read in document order with everything before it known, whatever the parts are; references inside an element to its own number stand for it. Of equal keys or names the first place is kept, with the last value. What has been read stays as it is while more is read.", "quantifier": "all documents of any depth, all reader states, all methods that spare older objects", "why_tests_cant": "Quantifies over documents of any depth with sharing and cycles; the tests read a few objects two levels deep.", "anchors": ["src/psrpcore/types/_serializer.py: _Serializer.deserialize, _update_value_ref", "src/psrpcore/types/_base.py: add_note_property", "src/psrpcore/types/_complex.py: ErrorRecord.FromPSObjectForRemoting"]}
{"id": "C83", "title": "Expressions over integers of fixed width keep value, type and range", "statement": "An expression of any shape over integers of the eight types and plain integers evaluates to its mathematical value with the type of the operand that has one, whatever the order of the operands, and is refused exactly when something with a type on the way does not fit that type.", "quantifier": "all expressions, all operators, all eight types, all integers", "why_tests_cant": "Quantifies over expression trees of any depth with mixed operand types; the tests try single operators on a handful of values.", "anchors": ["src/psrpcore/types/_primitive.py: PSIntegerBase.__new__, __add__, __pow__, __divmod__ and the other operator methods"]}
{"id": "C84", "title": "Decimals survive the wire and are written as the schema asks for", "statement": "Every decimal, with its sign, digits and exponent, is read back exactly as it was written. The text of a decimal element is taken exactly when it is a decimal in Python's sense, and every xs:decimal is one, with as many places as it has. What is written for a decimal is an xs:decimal of the same number, and what is read is a number that System.Decimal holds.", "quantifier": "all decimals and all texts", "why_tests_cant": "Quantifies over all coefficients, exponents and Unicode texts; the tests write a few decimals with two places.", "anchors": ["src/psrpcore/types/_primitive.py: PSDecimal", "src/psrpcore/types/_serializer.py: _Serializer.serialize, _Serializer.deserialize"]}
{"id": "C85", "title": "Floats survive the wire, rounded to the nearest when read, and are written as the schema asks for", "statement": "Every double, with its sign, is read back exactly as it was written, so no two are written alike; it is written with as few digits as are enough for that, never more than 17. The text of a float element is taken exactly when it says a number in Python's sense, and the result is the double nearest to that number, the even one of two, or an infinity when it is too large. Every xs:double is taken, what is written is an xs:double that stands for the same number, and what is read for a single is a number that System.Single holds.", "quantifier": "all doubles and all texts", "why_tests_cant": "Quantifies over all 2^64 doubles and all Unicode texts of any length and exponent; the tests write a few floats with one or two places.", "anchors": ["src/psrpcore/types/_primitive.py: PSSingle, PSDouble", "src/psrpcore/types/_serializer.py: _Serializer.serialize, _Serializer.deserialize"]}
{"id": "C86", "title": "Every message type has one event class, whatever a program registers", "statement": "Every one of the message types becomes an event of the class named after it, with an object of the class that is sent under that type, and no event class is for two types. After any further declarations each type still has an event class, the last one registered for it; a class that cannot be used is refused with KeyError, and a class that is registered without an error is used.", "quantifier": "all message types, all sequences of declared message and event classes", "why_tests_cant": "Quantifies over every sequence of decorator calls a program can make; the tests only use the classes of the package.", "anchors": ["src/psrpcore/_events.py: PSRPEvent.create, RegisterEvent", "src/psrpcore/types/_psrp.py: PSRPMessageType.get_message_id, PSMessageType"]}
{"id": "C87", "title": "An enumeration class holds values of its base type and nothing else", "statement": "A class of enumerations is made exactly when its base type is an integer type, no name is declared twice and every declared value can be one of that type; what goes wrong otherwise is a TypeError for the form and a ValueError for a value. All values of the class are in the range of its base type, also in classes derived from it. A value stands for the first name declared with it, a value that was not declared is refused, and every declared name leads to the same member as its value does.", "quantifier": "all base types, all lists of declared names and values, all values looked up", "why_tests_cant": "Quantifies over every class body and every integer; tests declare a handful of classes with one or two members.", "anchors": ["src/psrpcore/types/_enum.py: PSEnumMeta.__prepare__, PSEnumMeta.__new__", "src/psrpcore/types/_primitive.py: PSIntegerBase.__new__"]}
{"id": "C88", "title": "Operators on members of an enumeration stay in the enumeration and agree with the integers", "statement": "Any row of the integer operators that starts at a member of an enumeration class gives, if it gives anything, the member whose value is what the operators come to on integers, with every step a member on the way. A result that no member has is refused with ValueError. Where an operator works on the integers of the base type it works on the members in the same way.", "quantifier": "all enumeration classes, all members, all rows of operators and int operands", "why_tests_cant": "Quantifies over every class and every sequence of operators; the tests do not compute with members of enumerations.", "anchors": ["src/psrpcore/types/_primitive.py: PSIntegerBase.__abs__ ... __xor__", "src/psrpcore/types/_enum.py: PSEnumMeta.__new__, PSEnumBase"]}
{"id": "C89", "title": "Flags are closed under their operators, and inverting is its own inverse", "statement": "A number is a flag of a class exactly when all of its bits are in declared values, and any other is refused with ValueError. Or, and, xor of two flags of a class never fail, work bit by bit and give a flag of that class, also with any other integer as the second operand as long as the bits are those of the class. The inverse of a flag never fails and inverting twice gives the flag back.", "quantifier": "all flag classes with values that are not negative, all flags, all operands, all base types", "why_tests_cant": "Quantifies over every set of declared values and every number; the tests combine a few flags of one class.", "anchors": ["src/psrpcore/types/_enum.py: PSFlagBase.__or__, __and__, __xor__, __invert__, PSEnumMeta.__new__"]}
{"id": "C90", "title": "Powers with a modulus are the congruent number of the type", "statement": "pow(x, n, m) on an integer type gives exactly the number between zero and m that is congruent to the power, or for a negative exponent the one whose product with the power of the opposite exponent is congruent to one, provided that it fits the type; everything else is a ValueError. With a modulus of the type it is always there, unless a negative exponent asks for an inverse that does not exist.", "quantifier": "all integer types, all bases, exponents and moduli", "why_tests_cant": "Quantifies over all integers in three places; the tests use no modulus.", "anchors": ["src/psrpcore/types/_primitive.py: PSIntegerBase.__pow__"]}
