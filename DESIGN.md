# Formal model of psrpcore: design

The subject is `jborean93/psrpcore` (source in `/repo`, read as text, never run here).
The model is a set of total Gallina functions in `rocq/theories`, one per Python function, with
Python exceptions as values.  Each definition carries a comment citing the file and lines it models.

## Conventions

* A byte is an `N` below 256, a byte string is `list N`; a Python `str` is a `list N` of code points.
* `result A := Ok a | Err e`, `e` an error class (ValueError, StructError, PSRPCoreError, KeyError, ...).
  Where the Python code changes state and then raises, the model returns the changed state too.
* Stateful objects are records; one operation is `step : state -> op -> state * out`; histories are
  lists of operations.  Python dicts with insertion order are association lists.
* Unbounded Python ints are `Z`/`N`; wire fields carry explicit range checks like `struct.pack`.
* Third-party code (RSA, the AES block function, the XML parser) is either outside
  the model boundary or a universally quantified function whose assumed law is a visible hypothesis
  of the theorem.  There are no axioms.
* `Model_*.v` holds definitions only, `Spec_*.v` independent specifications, `Proofs_*.v` the proofs,
  `Properties_*.v` only `Theorem ... exact lemma. Qed.`, `Print Assumptions` and non-vacuity `Example`s.

## Plan per property

| Id | Modelled | Theorem shape |
|---|---|---|
| C01 | `create_fragment`, `unpack_fragment` on bytes, struct range errors | round trip with arbitrary tail; error characterisation |
| C02 | `create_message`, `unpack_message` with GUID `bytes_le`, BOM, EMPTY_UUID | round trip; rejects characterised |
| C03 | `data_to_send` over the message queue | arithmetic invariant of the loop |
| C04 | same | measure strictly decreases; bound on number of calls |
| C05 | sender + wire + receiver as one transition system | refinement: received ++ in flight = queued |
| C06 | `data_to_send` | loop invariant on (pipeline id) |
| C07 | `prepare_message` / `data_to_send` history | invariant over op lists; wire log projection |
| C08 | `next_event` | frame property for a mismatching fragment |
| C09 | `next_event` on arbitrary bytes | structural recursion on length; error keeps buffer |
| C10 | `receive_data`/`next_event` with cut payloads | expected refuted for cuts in a body; proved for cuts at fragment boundaries and in headers |
| C11 | `next_event` on an interleaving | per-object projection equals the object's sequence |
| C12 | `data_to_send` | expected refuted (stream type taken from the first message only); proved when the queue is uniform |
| C13 | `_serialize_string`, `_deserialize_string` at code unit / byte level | round trip; expected refuted in full because the reader's pattern matches at odd byte offsets |
| C14 | `_serialize_string` | character-class invariant; expected refuted for some lone surrogates |
| C15 | `PSIntegerBase.__new__`, decimal text | acceptance iff in range; text round trip |
| C16 | int branch of `serialize` | proved inside [-2^31, 2^63-1]; refuted outside |
| C17 | `_serialize_duration`, `_deserialize_duration` | round trip outside a characterised set; refuted for 10 s |
| C18 | `_serialize_datetime`, `_deserialize_datetime` | round trip |
| C19 | `PSVersion` text and comparison | round trip, total order |
| C20 | base64, GUID little-endian layout, char | round trips |
| C21 | value tree -> XML tree -> value tree | structural induction with the reference tables as state |
| C22 | same, numbering of RefId/TN | state invariant over the traversal |
| C23 | object graphs as a store of identities | sharing theorem; refuted for equal extended primitives |
| C24 | TN table keyed by first name | proved when first names determine lists; refuted otherwise |
| C25 | PKCS7 + CBC over an arbitrary permutation + base64 + UTF-16 | round trip |
| C26 | blob layout, little-endian integers | round trip with RSA as a parameter |
| C27 | every client/server operation | guard table; error implies state unchanged |
| C28 | `_ci_counter` over op histories | monotone counter; refuted on the server after `connect` |
| C29 | client handlers | refinement to a map of outstanding calls |
| C30 | client + two FIFO channels + server | inductive invariant |
| C31 | server `_change_state` + channel + client | inductive invariant |
| C32 | handshake on two FIFO channels | invariant over all schedules |
| C33 | pipeline table | invariant, frame |
| C34 | client host-call table, server `host_call` | refinement to a map |
| C35 | `_key_requested` on both sides | invariant over histories |
| C36 | version gates | decision table |
| C37 | `PowerShell`/`Command` To/From | round trip |
| C38 | redirections | round trip per version |
| C39 | `add_member` | NoDup invariant |
| C40 | `__getattribute__`/`__setattr__` | read-over-write laws |
| C41 | 2-D pack/unpack | round trip |
| C42 | host parameter conversion | per-method round trips |
| C43 | `ClixmlShell` | invariant; expected refuted when the first call finds nothing queued |
| C44 | `serialize_clixml`/`deserialize_clixml` on XML trees | round trip; refuted for the empty list |
| C45 | `_serialize_enum_to_string` | characterisation |
| C46 | queue branch of serialize | refuted for queues; proved without queues |
| C47 | PKCS#7 | inverse and rejection |
| C48 | `HostInfo` with `HostDefaultData`, to and from its property form | round trip |
| C49 | `ClixmlShell.data_to_send` text read by `ClixmlOutput` / `deserialize_clixml` | round trip per send, stream by stream |
| C50 | `LocalCryptoProvider` | encrypt and decrypt invert each other |
| C51 | everything `_Serializer.serialize` writes | a grammar of the wire form (`Spec_Wire.v`), soundness of every document, and values shown by it |
| C52 | every public operation and every received message of client and server | decision tables: state, counters, messages queued, event given |
| C53 | pipelines over whole histories of a client joined to a server | order invariant on the message log |
| C54 | the message classes of `types/_psrp.py`, UTF-8, events | round trip from message to bytes to message |
| C55 | pools + messages + fragments + bytes as one system | refinement: the byte system simulates the message system |
| C56 | `ErrorRecord`, `InformationalRecord`, `InvocationInfo`, `ScriptExtent`: To/From | exact conditions for writing and reading; what arrives, field by field; fixed points |
| C57 | `ProgressRecord` as PR element | round trip, tree and text |
| C58 | operators of `PSDateTime` and `PSDuration` | exactness against numbers of nanoseconds |
| C59 | classes, instances and property objects in one world with addresses | separation invariant over programs; frame theorems |
| C60 | `PSObject.__init__` | exact acceptance condition; values read back |
| C61 | `_validate_callable` | equivalence with Python's own binding |
| C62 | `PSType`, `ps_isinstance`, `TypeRegistry` | meaning of type names; monotone registry |
| C63 | `deserialize` on arbitrary element trees | error set by induction on the tree; heap invariant; frame property of the tables |
| C64 | `__getitem__`/`__setitem__` of objects, lists, dictionaries, strings, byte arrays | positions against a small specification of indices and slices; frame properties |
| C65 | host helpers, messages, serializer and event decoding together | relation between graphs and plain values: unique, kept by `same_graph`, total on what can be sent |
| C66 | commands, pipelines, messages and serializer together | trees of what the hooks build placed in the heap; reading them back through `same_graph`; C37 for the rest |
| C67 | `Model_Builder.v` | a store of all commands by age and per pipeline a list of ages, against the history of calls read backwards (`story`) |
| C68 | `_serialize_datetime`/`_deserialize_datetime` for every date that can be created (`Model_Dates.v`) | the reader refuses texts without four leading digits; what rewriting the zone leaves alone; both platforms' years |
| C69 | `__str__` and `__repr__` of durations, dates and characters (`Model_Dates.v`) | the text against a grammar of numerals; inversion of the text |
| C70 | `ClientPowerShell.__init__` (`Model_Journey.v`), then C67's calls, then C66's bytes | the story of each command carried through `good_pipeline` and `arrives`; old error redirections told from the calls |
| C71 | `int(text)` (`Model_Scalars.v`: Unicode digits and spaces mapped to ASCII, trim, sign, digits with single underscores) | numerals and the schema's integers as inductive relations (`Spec_Numeral.v`); `parse_int_iff` both ways |
| C72 | `PSObjectMeta.to_string`, `PSObject.__str__`/`__repr__` and the ToString element (`Model_ToString.v`); `__str__` methods of user classes are arbitrary terms that may call `super()`, ask for the text or look at it | induction on the recursion limit; dictionaries of properties by reverse induction |
| C73 | `_deserialize_duration` with its pattern (`Model_Scalars.v`: digits of every script, optional fields, `int(float(seconds))` as rounding to 53 bits) | the shape as a relation on fields (`Spec_Duration.v`), both ways; bounds on `half_even` |
| C74 | `_deserialize_datetime` with its two patterns and `strptime` (`Model_Scalars.v`) | the shape as a relation on fields (`Spec_DateText.v`), both ways: `date_fwd`, `date_inv` |
| C75 | `uuid.UUID(text)` with `int(.., 16)` (`Model_Text.v`), `_VERSION_PATTERN` and `read_bool` (`Model_Scalars.v`) | the shapes as relations (`Spec_TextForms.v`), both ways: `guid_iff`, `version_iff`, `bool_iff` |
| C76 | `base64.b64decode` (`Model_Text.v`) | the groups and what may stand between them as a relation (`Spec_Bytes64.v`), both ways: `bytes_iff` by the first character that counts |
| C77 | `GetMetadata` from its constructor to the bytes and back (`Model_Metadata.v`) | the lists placed in the heap as in C66, `place_all_ok`, then `message_lines` |
| C78 | error and informational records as objects in the four messages that carry them (`Model_RecordWire.v`) | properties placed like C66, `record_placed`, `message_lines`, then C56 on the properties |
| C79 | objects with ToPSObjectForRemoting in graphs (`BMade` in `Model_Clixml.v`): written out at each mention | C21 and C23 over graphs with such objects; a set of addresses each leading to another is never left (`never`) |
| C80 | `send_event` and `write_information` with `InformationRecord.create` to the bytes and back (`Model_Notices.v`) | one placed list around any message (`one_written`, `one_seen`), the defaults as a relation (`or_else`) |
| C81 | FromPSObjectForRemoting at every Obj element (`Model_FromHook.v`), the methods being arbitrary functions on the reader's state | the C63 invariants (`keeps`, `frames`, `calm`) through one more step; a reader without methods is simulated on documents that name no class with one (`same`) |
| C82 | the reader of C63/C81 on documents of any depth | no object below the allocation mark is changed (`spares`); the loops as a relation between elements, values and states (`one_by_one`) |
| C83 | the operator methods of `PSIntegerBase` and CPython's choice between them, on expression trees (`Model_Numbers.v`) | a relation for what an expression is worth, functional by induction; evaluation is equivalent to it plus the ranges |
| C84 | `PSDecimal` as CPython's `decimal.Decimal`: `__str__`, upper-casing, the constructor with white space, underscores, digits of any script and the exponent limits (`Model_Decimal.v`) | a grammar of texts with their values (`Spec_Decimal.v`); the parser is equivalent to it, and what is written is in it |
| C85 | `PSSingle` and `PSDouble` as CPython's floats: the shortest text that reads back, upper-casing, `float(text)` with white space, underscores between digits, digits of any script, correct rounding and overflow (`Model_Float.v`); sizes are natural numbers of units of 2^-1074 | a grammar of texts with their values, and the nearest of all numbers with 53 bits, the even one of two (`Spec_Float.v`) |
| C86 | `PSMessageType.__call__`, `PSRPMessageType.get_message_id`, `RegisterEvent`, `PSRPEvent.create` and the 62 classes they are applied to (`Model_Registry.v`); a class is its qualified name | the last declaration that is meant for a type, on lists of declarations without dictionaries (`Spec_Registry.v`) |
| C87 | `PSEnumMeta.__prepare__` and `__new__` with Python's EnumMeta: repeated names, aliases, look-up by value and by name, derived classes (`Model_EnumClass.v`) | what a declared value says, by the grammar of numerals and the ranges that the integer types have (`Spec_EnumClass.v`) |
| C88 | the operators of `PSIntegerBase` where `self` is a member of a `PSEnumBase` class (`Model_EnumOps.v`) | rows of operations on integers that meet declared values only, with the meaning of each operator from C15 (`Spec_EnumOps.v`) |
| C89 | `PSFlagBase` operators with `Flag._missing_`, `Flag._get_value` and `Flag.__invert__` of Python 3.11 (`Model_FlagOps.v`); a flag is its value | sets of bits: a bit is in a declared value, or is one (`Spec_FlagOps.v`) |
| C90 | `PSIntegerBase.__pow__` with a modulus (`Model_PowMod.v`); the inverse is searched for where `int.__pow__` uses Euclid's algorithm | congruences as divisibility (`Spec_PowMod.v`) |

The statements themselves are in `properties.jsonl`; which theorem stands for which is in `MANIFEST.json`.

## Where each part of the code is modelled

| Source | Model | Left out |
|---|---|---|
| `_payload.py` | `Model_Payload.v` | `PSRPPayload` (a plain record) |
| `_base.py` sending and receiving | `Model_Transport.v` | logging |
| `_base.py`, `_client.py`, `_server.py` pools and pipelines | `Model_Pool.v` | a user value is a token (see below); `metadata` is inside the token |
| `_client.py` ClientPowerShell constructor and builder methods, `_command.py` methods | `Model_Journey.v`, `Model_Builder.v` | parameter values abstract; pipelines numbered by the caller; returned `self` not shown |
| `_base.py` prepare/process of a message | `Model_Messages.v`, joined with the pools in `Model_Bytes.v` | - |
| `_command.py`, `_pipeline.py` | `Model_Command.v`; with the object graphs written and read in `Model_Pipeline.v`; `GetMetadata` in `Model_Metadata.v` | `__repr__` |
| `_host.py`, `types/_host.py` | `Model_Host.v` | values are plain trees there; C65 relates them to the object graphs the serializer writes |
| `_events.py` | `Model_Pool.v`, `Model_Host.v`, `Model_Messages.v`, `Model_Registry.v` | `__repr__` |
| `_crypto.py` | `Model_Crypto.v` | AES and RSA are parameters |
| `_clixml_shell.py` | `Model_Shell.v` | Windows DPAPI calls |
| `types/_primitive.py` | `Model_Scalars.v`, `Model_Text.v`, operators of dates and durations in `Model_Time.v`, their texts and those of characters in `Model_Dates.v`, integer expressions in `Model_Numbers.v`, decimals in `Model_Decimal.v`, floats in `Model_Float.v`, powers with a modulus in `Model_PowMod.v` | arithmetic on floats |
| `types/_base.py` | one object in `Model_Object.v` (C39, C40); classes, script properties, constructors and the registry in `Model_Class.v` (C59-C62) | `to_string`, `__repr__`, `__dict__`; rehydrated enums; assigning the attribute `PSObject` |
| `types/_serializer.py` | `Model_Strings.v`, `Model_Enum.v`, `Model_Clixml.v`, `Model_FromHook.v`, `Model_Xml.v` | `ToPSObjectForRemoting` is `BMade`: what it returns is part of the heap; `FromPSObjectForRemoting` is not called on an Obj element around another object (no serializer writes that); `PR` elements are in `Model_Records.v`, not in graphs |
| `types/_psrp.py` | `Model_Messages.v`, `Model_Registry.v` | - |
| `types/_enum.py`, `types/_collection.py` | `Model_Enum.v`, `Model_EnumClass.v`, `Model_EnumOps.v`, `Model_FlagOps.v`, `Model_Clixml.v`; indexing (also of strings and byte arrays) in `Model_Index.v` | `PSFlagBase` on a Python before 3.11 and negative flags, members declared with tuples or `auto()`; assigning to a slice; keys that equal an int without being one (floats); objects with `__index__` |
| `types/_complex.py` | records in `Model_Records.v`, their bytes in `Model_RecordWire.v`, enum numbers in `Model_Pool.v`/`Model_Command.v` | `NETException`, `InformationRecord` and `PSCredential` are plain property bags |

## Simplifications

* *Time and text parsing.*  `strptime` is modelled for the two formats that are used, from the patterns of Python's `_strptime`
  module (one-digit fields, digits of every script, either case of the T); `int(text)` is Python's
  own up to the limit of 4300 digits, which is left out; `str.lower`/`upper` act on ASCII letters.
  The float that the seconds of a duration go through is modelled (53 bits, ties to even) up to its overflow at 2^1024,
  where both Python and the model raise OverflowError.
* *Numbers.*  In object graphs floats, doubles and decimals are the text that is written for them; that this text determines a decimal and is
  read back as it is C84_apart and C84_round, for floats C85_apart and C85_round.  `float(text)` and `repr` of a float are taken
  to be what CPython documents: correct rounding, and the least number of digits that reads back (the nearest of those); the
  model tries 1 to 17 digits in turn and reads every candidate back; that 17 are enough and none with fewer digits is missed is C85_short.
* *Cryptography.*  AES is any invertible function on 16-byte blocks, RSA any pair with decryption inverting encryption.
  In `Model_Pool.v` RSA is symbolic: an encrypted key is the pair of public key and session key.
* *Pool level.*  A user value is a payload: `Good token` or `Bad error` (the serializer raises).  Messages are bodies with
  the fields the receiver reads.  Integers out of range (ValueError from `PSInt`) are not modelled at this level.
  `Model_Bytes.v` gives tokens their meaning through a `reading`, so that C55 covers real values.
* *CLIXML level.*  The heap is not garbage collected (Python keeps every object alive through the serializer's own list);
  recursion depth is fuel and the theorems say how much is enough; the state of a serializer that raised is dropped.
  Secure strings are already encrypted when they get here.
* *XML level.*  ElementTree's writer and expat are Python's, not in `/repo`; the parser handles what the writer can write.
  Unpaired surrogates make expat raise, which is modelled as a parse error.
* *Messages.*  An accessor finding another type than declared is a TypeError in the model where Python passes the value on;
  None and a falsy object are not told apart where the code only asks for truth.
* *Records.*  User values, bound parameters and the exception's own data are opaque; in C56 the
  serializer between the two ends is the identity on the property list, which C78 shows of the serializer that is modelled (the
  properties declared by the record classes are not put on the object that is read); a property of another type than declared raises where Python casts it.
* *Host calls.*  A property or parameter of another type than declared raises where Python casts it (`PSInt("5")`) or, for None,
  passes it on; the theorems on malformed calls (C42_missing, C42_arity, C42_range, C42_colour) do not depend on that.
* *Dates and durations.*  A timedelta is its number of microseconds, a datetime the number of microseconds since year 1 on its own
  clock (`Model_Time.v`); time zones have fixed offsets; which method Python calls for a pair of operands is written out.
* *Classes.*  A getter is a tree of reads of attributes of its object, a setter a tree of reads and writes: they have no other
  effects.  The order in which Python searches base classes is given with the declaration.  Data descriptors of the class, which
  come before the instance's own attributes, are not modelled.  Calls of getters from getters are bounded by fuel.
* *Host values.*  Flag enumerations accept any int, as Python's boundary handling in the code under study does.

## Outcome

Claims with status `partial` are those whose statement, read literally, is false of the code or needs a condition; the
condition is part of the theorem and is shown to be needed by a `..._refuted` theorem.

### Findings proved about the code (each a `..._refuted` theorem with a concrete witness)

| Claim | What goes wrong | Where |
|---|---|---|
| C10 | `next_event` between the two halves of a fragment body consumes the short body as if it were whole | `_base.py` next_event |
| C12 | a payload of one pipeline mixes prompt-response and default data | `_base.py` data_to_send |
| C13, C21, C25, C50 | un-escaping works on UTF-16 bytes and can match one byte off; a split surrogate pair is joined | `_serializer.py` `_deserialize_string` |
| C14, C54 | lone surrogates U+D900..U+DBFF are not escaped (regular expression says D800-D8FF) | `_serializer.py` `_serialize_string` |
| C15 | enum members skip the range check | `_primitive.py` |
| C16, C54 | ints below -2^31 are tagged I32, ints from 2^63 on I64 | `_serializer.py` serialize |
| C17, C51 | a duration with 10, 20, .. 50 whole seconds is written as 1, 2, .. 5 (`rstrip("0")`) | `_serializer.py` `_serialize_duration` |
| C21 | object-valued properties of containers, object keys, duration keys, self-containing lists do not round-trip | `_serializer.py` |
| C23 | lists and dictionaries are duplicated at each occurrence, equal annotated strings are merged | `_serializer.py` |
| C24 | type names are looked up by the first name only | `_serializer.py` |
| C27 | `open` with arguments that cannot be serialized leaves the pool Opening | `_client.py` |
| C28, C34, C52, C55 | `connect` on the server restarts call and object ids; waiting calls are answered wrongly, received messages are overwritten | `_server.py` |
| C31 | the change to Opening, and a break with an unserializable error, are never announced | `_server.py` |
| C33, C53 | two pipelines can be created with the same id | `_base.py` |
| C35 | a key request reaching a client that is not Opened is lost for good | `_client.py` |
| C38 | below protocol 2.2, redirecting errors to Null after Output keeps Output | `_command.py` |
| C40 | Python attributes hide properties of the same name; duplicated names | `_base.py` (types) |
| C41 | empty or ragged grids fail or lose cells | `types/_host.py` |
| C42 | prompt fields lose default value and attributes | `types/_host.py` |
| C43 | an empty or failing first `data_to_send` uses the header up | `_clixml_shell.py` |
| C44 | the empty list, U+FFFE/U+FFFF, raw control characters and CR do not survive | `_serializer.py` |
| C45 | aliases repeat names | `_serializer.py` |
| C46 | serializing a queue empties it | `_serializer.py` |
| C49 | the output of two sends is not one document and cannot be read | `_clixml_shell.py` |
| C52 | `send(None)` queues a PIPELINE_OUTPUT on the client; the server's first message has the empty pool id | `_client.py`, `_server.py` |
| C53 | a host call can be made through the pool for a pipeline; states of never requested pipelines; input after the end | `_client.py`, `_server.py` |
| C54 | a count of zero in CONNECT_RUNSPACEPOOL is dropped | `_events.py`, `_psrp.py` |
| C56 | a record passed on loses the invocation attached to its exception; an InvocationInfo without CommandOrigin (the default) is written but cannot be read; line texts, position message, empty details, added properties, explicit text are dropped; a missing position is made up; the text of a position has one character too many | `types/_complex.py` |
| C57 | an empty activity or status, or a number that is None, is written but cannot be read; an empty operation becomes None | `_serializer.py` |
| C58 | `timedelta + PSDuration`, `PSDuration + PSDateTime`, `datetime - PSDateTime`, `abs`, `*` and comparisons of dates drop the nanoseconds; a PSDuration below one microsecond is false and none can be hashed; `PSDateTime(date)` drops the nanosecond and takes any number for it; a date within the first microsecond of year 1 cannot be reached by a borrow; every call of an operator of PSDuration lengthens a list that is never shortened | `types/_primitive.py` |
| C59 | one property object added to two instances is shared; `add_member` on a class derived without `PSType` changes its base class; `PSType` extends the lists it is given in place; a getter assigned to a note property of a class is lost in its instances; a mandatory script property that loses its setter makes its class impossible to instantiate | `types/_base.py` |
| C60 | an alias takes a positional slot nobody can fill; None is accepted for mandatory properties although `set_value` documents that it fails | `types/_base.py` |
| C61 | a getter with a required keyword-only parameter is accepted and fails at every read; bound methods and builtins are refused | `types/_base.py` |
| C62 | only the first base class is inherited from; a class without type names makes `ps_isinstance` raise IndexError; only one `Deserialized.` is ignored | `types/_base.py` |
| C63 | an `Obj` around `Nil` reads as None but leaves a blank object under its RefId; an `Obj` around a `Ref` overwrites the type names of the object referred to | `types/_serializer.py` |
| C64 | reading a missing key of a PSDict never raises KeyError (AttributeError for names, TypeError for others, the bound method for "items"); an entry hides the property of its name; `PSByteArray[i]` gives n zero bytes where the byte is n; parts of strings lose the properties | `types/_collection.py`, `types/_primitive.py` |
| C66 | a script with a control character (such as the start of a colour escape) is written unescaped as ToString and makes CREATE_PIPELINE unreadable | `_command.py` `__str__`, `_serializer.py` |
| C66 | when the last command ends a statement, as in every pipeline that was received, an empty statement is sent after it: a pipeline passed on gains one | `_pipeline.py:113-117` |
| C67 | a Command object added to two pipelines, or twice to one, is shared: parameters and statement ends added through one show in the other | `_client.py` `add_command` |
| C68 | .NET's DateTime.MinValue and every other year below 1000 is written with fewer than four digits where strftime does not pad; no reader takes it | `_serializer.py` `_serialize_datetime` |
| C68 | an offset with seconds (zoneinfo's local mean times) is written as `+00:1932`, which cannot be read; so is a nanosecond attribute of 1000 or more | `_serializer.py` `_serialize_datetime`, `_primitive.py` `PSDateTime` |
| C69 | the text of a date drops the seconds of the offset; `PSChar(str(c))` raises UnicodeEncodeError for surrogates, and `PSChar("")` struct.error | `_primitive.py` |
| C70 | a pipeline asked to run as STA (value 0, so false) is sent with the pool's apartment state: `apartment_state or runspace_pool.apartment_state` | `_client.py:558` |
| C71 | `1_0` or fullwidth and Arabic digits in an integer element are read as a number, though no schema processor takes them | `types/_primitive.py:123`, `types/_serializer.py:1001,1025` |
| C72 | a `__str__` of a subclass that calls `super().__str__()` (or asks `PSObject.to_string`) recurses until RecursionError, in `str()` and in the serializer | `types/_base.py:152-157,720` |
| C72 | `str()` of an object whose class defines `__str__` is not the text that was set or received | `types/_base.py:719`, `types/_complex.py:722,806` |
| C72 | an empty `to_string` is not sent | `types/_serializer.py:942` |
| C72 | a text set on a class is lost to its instances | `types/_base.py:168-190` |
| C73 | `PT1073741824.9999999S` is read one second too long (`int(float(..))` rounds up and the fraction is added again); `PTS`, digits of other scripts and a final line feed are taken | `types/_serializer.py:91-104,393` |
| C74 | Behind a fraction anything after a line feed is ignored (`…00.5Z\n` and whatever follows); `2020-1- 1t0:0:0` and digits of other scripts are taken; eight digits of fraction are refused, and seven unless the text before them has 19 characters | `types/_serializer.py:82-86,322-367` |
| C75 | `+0x_0000_0000_0000_0000_0000_7f` with a blank before it is a GUID, so are texts with unmatched braces, hyphens anywhere and `urn:`/`uuid:` in the middle; a version `2147483648.0`, with Arabic digits or a line feed behind it is taken; the boolean `1` is read as false | `types/_primitive.py:28-44,898-911`, `types/_serializer.py:987` |
| C76 | `TQ==TWFu` gives one byte: everything behind the first padding is lost without an error, and characters that are no base64 are passed over | `types/_serializer.py:998` |
| C77 | A null Name, which MS-PSRP 2.2.2.14 allows, becomes `[None]` on the server, and `name=None` sends a list with a null; `namespace="AB*"` is sent as the list of its characters, although a single name may be given as a text | `_pipeline.py:167-168`, `types/_base.py:361-367` |
| C79 | An object with ToPSObjectForRemoting is written out anew at each mention, so it arrives once per mention; an error record whose target is itself, or a cycle of such objects, is never finished (RecursionError) | `types/_serializer.py:675-690` |
| C80 | `write_information(tags="tag")` sends the tags t, a and g | `types/_complex.py:1101-1102`, `types/_base.py:361-367` |
| C81 | A reference inside an element whose class has FromPSObjectForRemoting gets the object before the transformation: an error record read with itself as target has the object before the transformation as target, not the record | `types/_serializer.py:1168-1173` |
| C82 | Reading an error record adds its InvocationInfo to its exception; when two records in one document share the exception, the first record's is overwritten by the second's | `types/_complex.py:837-840` |
| C83 | `1 + PSByte(255)` is a plain 256, `PSByte(255) + 1` is refused; `PSInt(2) ** -1` is 0; `PSInt(2) + 0.5` is a TypeError | `types/_primitive.py:155-203` |
| C84 | `PSDecimal("0.0000001")` is written as `<D>1E-7</D>` and `PSDecimal("1E+5")` as `<D>1E+5</D>`, neither an xs:decimal; NaN as `<D>NAN</D>`; decimals beyond System.Decimal are taken and sent | `types/_serializer.py:720-753`, `types/_primitive.py:813-830` |
| C85 | NaN is written as `<Sg>NAN</Sg>`, which is no xs:float; a PSSingle holds numbers with 53 bits (0.1), and a plain Python float is sent as one | `types/_serializer.py:733-753`, `types/_primitive.py:768-790` |
| C86 | an event class of `typing.Any` from another module is left out by `RegisterEvent` without an error; `cls.__module__ in RegisterEvent.__module__` is a test for a part of the name, so a module `events` can replace the package's output event | `_events.py:262-275` |
| C87 | a member that is declared as a member of another enumeration is not checked against the range; `base_type` is not inherited, so a class derived from one of `PSByte` holds `PSInt` | `types/_enum.py:49-58`, `types/_primitive.py:119-127` |
| C88 | the operators of `PSIntegerBase` look the result up as a member: `A + B` and `A + 1` are a `ValueError` unless a member happens to have the value, and another member if one does | `types/_primitive.py:155-203` |
| C89 | from Python 3.11 on a flag combined with a plain `int` is a plain `int`, although bitwise operations are documented to preserve the type; inverting a flag twice loses bits that are only declared together | `types/_enum.py:150-169` |

### Seen while reading, not stated as theorems

* `HostDefaultData` with None for any of its values raises AttributeError when it is written (`types/_host.py:720`).
* `BufferCellType` is declared with the type name of `ControlKeyStates` (`types/_host.py:151`).
* An error in a cut fragment header delays complete messages that are already in the buffer.
* A message for an unknown call id or pipeline raises a bare KeyError on the client.
* `PowerShell` leaves `end_of_statement` True on the last command; `ToPSObjectForRemoting` then appends an empty ExtraCmds.
* `client.connect` in a wrong state names only BeforeOpen as allowed.
* `set_max_runspaces`/`set_min_runspaces` are not checked against the state after opening.
* `data_to_send` for a message of 2^32 bytes or more raises struct.error after the data was cut.
* `ScriptExtent.StartScriptPosition`/`EndScriptPosition` are declared PSString, so the repr of the position is what is sent.
* Objects with `ToPSObjectForRemoting` are rebuilt at each occurrence, so sharing of records within one document is lost.
* A tuple is serialized as an empty PSCustomObject.
* ToString and type-name texts are written without escaping, but ToString is read with un-escaping.  `good_graph` admits any ToString text
  without lone surrogates; only the text itself may come back different (`same_string`), and carriage returns in it come back as line
  feeds (C54_line_ends).
* `RunspacePoolHostResponseEvent.error` is not converted to an ErrorRecord although its pipeline sibling is.

## Mutation testing

Wrong programs tried against the theorems are in `seeded/LOG.jsonl`, one per line: a scratch copy of the model is edited the way
a real slip would look, everything is rebuilt, and the theorems that stop proving are recorded.  Survivors led to the tightened
statements named in the `tightened` field, or are marked as edits that do not break any claim.

## Trusted base

* The Coq 8.16.1 kernel, including its VM for the witnesses (`coqchk` rechecks every library without the VM).
* Axioms: none.  `Print Assumptions` stands under every theorem of `Properties_*.v` and prints "Closed under the global
  context" for each.
* The reading of the Python source into Gallina, definition by definition, through the cited lines.
* Outside the model: CPython itself, `xml.etree` and expat (modelled, not verified), `cryptography`, `uuid`, `datetime`, `struct`
  beyond the operations transcribed, memory and recursion limits, threads, and everything in the "left out" column above.
