claim("C01", "proved", ["C01_fragment_roundtrip", "C01_fragment_range"], "")
claim("C02", "proved", ["C02_message_roundtrip", "C02_message_malformed"], "")
claim("C03", "proved", ["C03_payload_size", "C03_payload_too_small"],
      "Queues are those reachable by queueing and sending messages of 1 .. 2^32-1 bytes.")
claim("C04", "proved", ["C04_progress", "C04_drain"], "")
claim("C05", "proved", ["C05_delivery", "C05_eventually"],
      "Payloads are carried whole and in order, as the transports do; one leading BOM is dropped (C02).")
claim("C06", "proved", ["C06_single_target"], "")
claim("C07", "proved", ["C07_numbering"], "")
claim("C08", "proved", ["C08_bad_fragment_id", "C08_bad_fragment_id_later"], "")
claim("C09", "proved", ["C09_next_event_total", "C09_short_tail_kept"], "")
claim("C10", "partial", ["C10_chunking_partial", "C10_chunking_refuted", "C10_truncated_body_accepted_refuted"],
      "False as stated: next_event called while a fragment body is incomplete consumes the truncated body. "
      "Proved for every cutting when next_event is only called at fragment boundaries or within a header.")
claim("C11", "proved", ["C11_interleaving"], "")
claim("C12", "partial", ["C12_streams_partial", "C12_streams_mixed_refuted"],
      "False as stated: data_to_send only compares pipeline ids. Proved for targets whose queued messages share a stream type.")
claim("C13", "partial", ["C13_string_roundtrip_partial", "C13_string_roundtrip_refuted", "C13_surrogates_roundtrip"],
      "False as stated: the byte-level search for escapes can match one byte off (U+xx00 runs). Proved for every string without such a run.")
claim("C14", "partial", ["C14_escaped_safe_partial", "C14_escaped_safe_unicode", "C14_escaped_safe_refuted", "C14_noncharacters_pass"],
      "False for lone surrogates U+D900..U+DBFF; proved for every other string, in particular all valid Unicode.")
claim("C15", "partial", ["C15_int_range", "C15_int_roundtrip", "C15_int_operators", "C15_int_operators_in_range", "C15_int_operators_meaning", "C15_enum_unchecked_refuted"],
      "Holds for ints and text; False for enum members, which skip the range check. The texts of integers are C71.")
claim("C16", "partial", ["C16_plain_int_partial", "C16_plain_int_refuted"],
      "False below -2^31 (tagged I32) and from 2^63 on (tagged I64, not rejected); proved to hold exactly in between.")
claim("C17", "partial", ["C17_duration_partial", "C17_duration_always_readable", "C17_duration_refuted"],
      "False when the seconds field is 10/20/30/40/50 without fraction (10 s is written PT1S); proved to hold for exactly all others.")
claim("C18", "proved", ["C18_datetime_roundtrip", "C18_eight_digits_rejected"], "")
claim("C19", "proved", ["C19_version_roundtrip", "C19_version_order", "C19_version_new_wf", "C19_trailing_newline"], "")
claim("C20", "proved", ["C20_base64_roundtrip", "C20_base64_text", "C20_guid_text_roundtrip", "C20_guid_bytes_roundtrip",
      "C20_char_roundtrip", "C20_char_range", "C20_bool_roundtrip"], "")
claim("C25", "partial", ["C25_secure_string_partial", "C25_secure_string_any", "C25_forwarded", "C25_no_key", "C25_register_key", "C25_form", "C25_malformed", "C25_own", "C25_secure_string_refuted"],
      "False only for strings holding both halves of a surrogate pair as separate characters (they are joined). The block cipher is any invertible function on 16-byte blocks; CBC and PKCS#7 are modelled.")
claim("C26", "proved", ["C26_public_key", "C26_key_exchange", "C26_layout", "C26_exponent", "C26_key_layout"],
      "For every RSA implementation whose decryption inverts its encryption; RSA itself is a parameter.")
claim("C45", "partial", ["C45_flag_text_partial", "C45_alias_refuted", "C45_zero_alias_refuted"],
      "False for classes with aliases (PSCredentialUIOptions): names repeat. Proved for classes with distinct values.")
claim("C47", "proved", ["C47_padding", "C47_unpadding"], "")
claim("C39", "proved", ["C39_distinct", "C39_refused", "C39_added"], "")
claim("C40", "partial", ["C40_last_write_partial", "C40_no_cross_effect", "C40_add_no_cross_effect", "C40_extended_first", "C40_alias",
      "C40_class_attribute_refuted", "C40_late_property_refuted", "C40_duplicate_names_refuted"],
      "False when the Python class or instance already has an attribute of that name (reads prefer it), or names are duplicated; "
      "proved for all other names, note and alias properties. Script properties are not modelled.")
claim("C37", "proved", ["C37_pipeline", "C37_pipeline_23", "C37_versions", "C37_empty", "C37_unknown_peer", "C37_one_statement"],
      "Parameter values, host information and stream options are abstract: their spelling is covered by the serializer claims.")
claim("C38", "partial", ["C38_fields", "C38_error_pair_partial", "C38_targets", "C38_refused", "C38_error_pair_refuted"],
      "Holds for the per-stream fields at every version. False for the older MergeMyResult/MergeToResult pair: after "
      "redirect_error(Output), redirect_error(Null) a peer below 2.2 still sends errors to Output.")
claim("C41", "proved", ["C41_grid_roundtrip", "C41_cells", "C41_degenerate_refuted"],
      "Grids that are empty or ragged (outside the statement) fail or lose cells: C41_degenerate_refuted.")
claim("C42", "partial", ["C42_call_partial", "C42_response", "C42_answers", "C42_range", "C42_arity", "C42_missing", "C42_colour", "C42_field_shape", "C42_field_refuted"],
      "All helper methods in both directions, for arguments of the right range. False for prompt fields with a default "
      "value or attributes, which are not sent. Through the serializer: C65.")
claim("C48", "proved", ["C48_host_info"], "")
claim("C27", "proved", ["C27_client_no_effect", "C27_server_no_effect", "C27_client_states", "C27_server_states",
      "C27_client_failed", "C27_server_failed", "C27_failed_open_refuted"],
      "Errors that are not about the state can leave a change behind in three cases, all named in C27_client_failed and "
      "C27_server_failed; the worst is open with unserializable arguments.")
claim("C28", "partial", ["C28_client_ids", "C28_client_fresh", "C28_server_ids_partial", "C28_server_connect_refuted"],
      "Holds for every client; false for a server after connect, which restarts the counter.")
claim("C29", "proved", ["C29_limits", "C29_answered_once", "C29_direct"], "")
claim("C33", "partial", ["C33_client_table_partial", "C33_server_table_partial", "C33_no_close", "C33_others", "C33_duplicate_refuted"],
      "False when two pipelines are created with the same id, which nothing prevents; proved for all other histories.")
claim("C34", "partial", ["C34_response", "C34_response_pipeline", "C34_call", "C34_void_methods", "C34_void_untracked", "C34_right_caller",
      "C34_at_most_once_partial", "C34_reused_id_refuted"],
      "False only after the server used connect, which restarts the call ids while calls may be waiting.")
claim("C36", "proved", ["C36_reset", "C36_information"], "")
claim("C30", "proved", ["C30_limits_agree"], "")
claim("C31", "partial", ["C31_client_tracks", "C31_server_announces_partial", "C31_same_state_partial", "C31_unannounced_refuted"],
      "Tracking holds in every run. Announcing is false for the change to Opening and for set_broken with an error that "
      "cannot be serialized; proved for all other changes.")
claim("C32", "proved", ["C32_outcome", "C32_progress"],
      "For arguments and private data that can be serialized; C27_failed_open_refuted shows what happens otherwise.")
claim("C21", "partial", ["C21_roundtrip_partial", "C21_ends", "C21_container_properties_refuted", "C21_entry_order_refuted",
      "C21_duration_key_refuted", "C21_cyclic_list_refuted", "C21_tostring_refuted"],
      "For all graphs, also cyclic ones, that meet good_graph, through one serializer and one deserializer. False "
      "outside it: object-valued properties of containers, object-valued dictionary keys, duration keys, lists that contain "
      "themselves; a ToString text that looks escaped changes, nothing else of its object does. Classes with their own (de)serialization hooks are not modelled.")
claim("C22", "proved", ["C22_numbering"], "For every heap, also outside C21's conditions.")
claim("C23", "partial", ["C23_sharing_partial", "C23_shared_list_refuted", "C23_equal_strings_refuted"],
      "Holds for plain objects, queues, Python instances and annotated strings, dates, GUIDs and floats that differ. False for "
      "lists and dictionaries, which are written out at each occurrence, and for equal annotated strings, which are merged.")
claim("C24", "partial", ["C24_type_names_partial", "C24_first_name_refuted", "C24_registered_refuted", "C24_primitive_refuted"],
      "Holds when objects that agree on the first type name agree on all; false otherwise.")
claim("C46", "partial", ["C46_heap_partial", "C46_queue_refuted"],
      "Queues are emptied by serializing them; nothing else changes.")
claim("C43", "partial", ["C43_framing_partial", "C43_later", "C43_silent", "C43_refuted", "C43_failed_refuted"],
      "Holds when something is written before the first data_to_send; an empty or failing first call uses the header up.")
claim("C44", "partial", ["C44_roundtrip_partial", "C44_wellformed", "C44_text", "C44_empty_refuted", "C44_noncharacter_refuted", "C44_control_refuted",
                         "C44_carriage_return_refuted"],
      "Down to the text of the document, for graphs whose texts XML can carry; false for an empty list, U+FFFE/U+FFFF, raw control characters and CR.")
claim("C49", "partial", ["C49_streams", "C49_readback_partial", "C49_progress", "C49_progress_source", "C49_two_sends_refuted"],
      "Read back for each single data_to_send; the concatenation of two is not one XML document and cannot be read.")
claim("C50", "partial", ["C50_roundtrip_partial", "C50_shape", "C50_split_refuted"],
      "For every str without a high surrogate directly before a low one (no well-formed text has one); such a pair is joined. DPAPI not modelled.")
claim("C51", "partial", ["C51_numerals", "C51_integers", "C51_chars", "C51_versions", "C51_guids", "C51_bytes", "C51_datetimes",
      "C51_durations_partial", "C51_durations_refuted", "C51_strings", "C51_values", "C51_documents", "C51_shown", "C51_documents_shown"],
      "For heaps without durations that leave a whole multiple of ten seconds (C17); those are written wrongly. Floats and "
      "secure strings are texts in the model.")
claim("C35", "proved", ["C35_one_public_key", "C35_one_request", "C35_given_key_not_requested", "C35_same_key", "C35_lost_request_refuted"],
      "A request arriving while the client is not Opened is lost for good: C35_lost_request_refuted.")
claim("C52", "partial", ["C52_client_operations", "C52_server_operations", "C52_client_messages", "C52_server_messages",
      "C52_client_table_unique", "C52_server_table_unique", "C52_reactions_unique", "C52_client_history", "C52_server_history",
      "C52_client_sends_refuted", "C52_server_numbers_refuted", "C52_server_pool_id_refuted"],
      "The tables hold without conditions. Over histories three parts are false: send(None) of a client queues a PIPELINE_OUTPUT, "
      "connect of a server starts the object ids again, and a server's first message carries the empty pool id.")
claim("C53", "partial", ["C53_data_while_running", "C53_announced_state", "C53_input_after_creation", "C53_same_id_refuted",
      "C53_pool_call_refuted", "C53_unsolicited_refuted", "C53_input_after_end_refuted"],
      "For pipelines with different ids whose host calls go through the pipeline, and servers that announce states of requested "
      "pipelines only; each condition is needed. Input after the end of input is not prevented.")
claim("C54", "partial", ["C54_roundtrip_partial", "C54_layout", "C54_form", "C54_writes", "C54_refuses", "C54_utf8_writes", "C54_utf8_reads",
      "C54_codes", "C54_line_ends", "C54_zero_refuted", "C54_availability_refuted", "C54_surrogate_refuted"],
      "For messages whose parts are in the domain of C21 and C44. False for a count of zero in CONNECT_RUNSPACEPOOL, for an untyped "
      "availability count outside [-2^31, 2^63) and for lone surrogates D900-DBFF.")
claim("C55", "proved", ["C55_refines", "C55_view", "C55_limits_agree", "C55_opens", "C55_right_caller", "C55_same_key", "C55_reconnect_refuted"],
      "Every entry of the send buffers is the pool's view (a stable reading) of a message in the domain of C54, and counters stay below "
      "2^64. Beyond one connection it is false: connect of a server restarts the object ids, and a message the client has received "
      "but not processed is replaced by a later one.")
claim("C56", "partial", ["C56_sendable", "C56_readable", "C56_error", "C56_settled", "C56_again", "C56_informational", "C56_form", "C56_informational_form", "C56_text", "C56_text_refuted",
      "C56_position_refuted", "C56_no_position_refuted", "C56_relay_refuted", "C56_default_invocation_refuted", "C56_command_refuted",
      "C56_lost_refuted", "C56_unsendable_refuted", "C56_category_text_refuted"],
      "Exactly which records can be sent and read is proved, and field by field what arrives; it is not always what was sent (see the "
      "refuted theorems), and passing a record on loses more. Records that have settled arrive unchanged. User values are opaque.")
claim("C57", "partial", ["C57_form", "C57_element", "C57_text", "C57_lacking", "C57_empty_refuted", "C57_none_refuted"],
      "For numbers given, texts not empty and in the domain of C13. Empty texts and numbers that are None are written but cannot be "
      "read, or are read as None.")
claim("C58", "partial", ["C58_made", "C58_dated", "C58_sum", "C58_difference", "C58_minus", "C58_compared", "C58_laws", "C58_moved_partial", "C58_between",
      "C58_and_back", "C58_history", "C58_inherited", "C58_dates_compared_partial", "C58_forgets_refuted", "C58_sum_refuted", "C58_difference_refuted",
      "C58_moved_refuted", "C58_between_refuted", "C58_first_refuted", "C58_dates_compared_refuted", "C58_copy_refuted",
      "C58_nanosecond_refuted", "C58_duration_refuted"],
      "Proved with the PSDuration or PSDateTime on the left (differences and comparisons of durations also on the right). The operators "
      "inherited from timedelta and datetime drop the nanoseconds: timedelta + PSDuration, PSDuration + PSDateTime, datetime - PSDateTime, "
      "comparisons of dates, abs, multiplication, truth. Results within the first microsecond of year 1 can be refused. "
      "The list of classes of each decorated method grows with every call.")
claim("C59", "partial", ["C59_apart", "C59_instance", "C59_class", "C59_copied", "C59_shared_property_refuted", "C59_subclass_refuted",
      "C59_list_refuted", "C59_getter_lost_refuted", "C59_no_instances_refuted"],
      "For programs that give each instance its own property objects and each declaration its own lists, and classes whose properties are "
      "as constructed; each condition is needed. add_member on a class derived without PSType changes its base class.")
claim("C60", "partial", ["C60_accepts_partial", "C60_values_partial", "C60_alias_refuted", "C60_none_refuted"],
      "For classes whose properties hold values (notes as constructed), with distinct names in each list, casts that are idempotent and "
      "names no class attribute answers. Alias and script properties without setter occupy positional slots that nobody can fill; None "
      "is accepted for mandatory properties.")
claim("C61", "partial", ["C61_accepted_partial", "C61_enough", "C61_calls", "C61_keyword_refuted", "C61_only_functions_refuted"],
      "For functions without required keyword-only parameters, which pass the check although they cannot be called. Callables that are "
      "not functions are refused.")
claim("C62", "partial", ["C62_isinstance", "C62_declared", "C62_subclass", "C62_registered", "C62_rehydrated", "C62_deserialized",
      "C62_second_base_refuted", "C62_nameless_refuted", "C62_twice_refuted"],
      "Proved for questions about types that have a type name, declarations with lists of their own, and inheritance from the first base. "
      "False for a second base class, for classes without type names (IndexError) and for names that already had the prefix.")
claim("C63", "partial", ["C63_total", "C63_closed", "C63_reference", "C63_type_reference", "C63_list", "C63_queue", "C63_table", "C63_object",
      "C63_primitive", "C63_member", "C63_refuses", "C63_empty_number", "C63_null_refuted", "C63_renamed_refuted"],
      "Totality, closedness and references hold for all documents; contents are given exactly where the parts are not objects themselves. "
      "False: an object around Nil leaves a blank object under its number, and an object around a reference renames the object referred to.")
claim("C64", "partial", ["C64_list_element", "C64_list_rest", "C64_dict_entry", "C64_dict_read", "C64_dict_no_key_error", "C64_string",
      "C64_bytes_slice", "C64_bytes_zeros", "C64_parts", "C64_object", "C64_dict_missing_refuted", "C64_bytes_element_refuted"],
      "Elements, entries and slices hold for all contents and keys. False: a missing key of a dictionary never raises KeyError, and a byte "
      "array indexed with a number gives that many zero bytes instead of the byte. Assigning to a slice is not modelled.")
claim("C65", "proved", ["C65_unique", "C65_representable", "C65_values", "C65_call", "C65_request", "C65_response", "C65_answer",
      "C65_host_info", "C65_host_info_sent"],
      "Composes C42, C48 and C54 through the relation looks between object graphs and plain values; for prompt fields without default "
      "value and attributes, which are not sent (C42).")
claim("C66", "proved", ["C66_arrives", "C66_plain", "C66_host", "C66_document", "C66_empty", "C66_control_refuted", "C66_passed_on_refuted"],
      "The text of a command is also written unescaped, as ToString: one with a control character XML does not know makes the "
      "message unreadable (C66_control_refuted); a pipeline passed on gains an empty statement (C66_passed_on_refuted).")
claim("C67", "partial", ["C67_holds", "C67_story", "C67_refused", "C67_refused_nothing", "C67_others", "C67_texts", "C67_usual", "C67_server",
      "C67_shared_refuted", "C67_twice_refuted"],
      "All but the last sentence for every history of calls; the last sentence is false of Command objects added to two pipelines or twice "
      "to one, which are shared, not copied (C67_shared_refuted, C67_twice_refuted), and holds of names and scripts (C67_texts).")
claim("C68", "partial", ["C68_travels", "C68_stays", "C68_agrees", "C68_reader", "C68_early_refuted", "C68_offset_refuted", "C68_nanosecond_refuted"],
      "True exactly of the dates with a year written in four digits, an offset of whole minutes and a nanosecond below 1000; every other one "
      "is written but refused by the reader. Negative nanosecond attributes are not modelled.")
claim("C69", "partial", ["C69_duration", "C69_duration_tells", "C69_repr", "C69_repr_short", "C69_date", "C69_date_tells", "C69_offset_refuted",
      "C69_char_made", "C69_char", "C69_char_refused", "C69_char_refuted"],
      "False: the seconds of an offset are not in a date's text, and the text of a surrogate is not taken back. All the rest holds for all values.")
claim("C70", "partial", ["C70_travels", "C70_determined", "C70_sta_refuted"],
      "False: an apartment state of value 0 (STA) is taken for none and the pool's is sent. Everything else holds for all histories of sendable values.")
claim("C71", "partial", ["C71_reads", "C71_refused", "C71_one", "C71_char", "C71_schema", "C71_schema_refuted"],
      "False: underscores between digits and the digits and spaces of every script are taken too. The exact set of texts taken, "
      "and the value of each, is proved; Python's limit of 4300 digits is left out.")
claim("C72", "partial", ["C72_explicit", "C72_own", "C72_base", "C72_travels", "C72_repr", "C72_super", "C72_asking", "C72_super_refuted",
      "C72_shown_refuted", "C72_empty_refuted", "C72_class_refuted"],
      "False: a __str__ that calls super().__str__() never ends, str() ignores a set or received text when the class has its own, an empty "
      "text is not sent, a text set on a class is not its instances'. The rest holds for all classes.")
claim("C73", "partial", ["C73_taken", "C73_value", "C73_exact", "C73_schema", "C73_value_refuted", "C73_schema_refuted"],
      "False: 2^30 seconds or more with a fraction can be read one second too long, PTS (no digits), digits of other scripts and a line feed at "
      "the end are taken. The exact set of texts taken and the value of each, up to that second, is proved; the schema's texts with up to "
      "seven digits of fraction and below 2^30 seconds are read exactly.")
claim("C74", "partial", ["C74_taken", "C74_refused", "C74_one", "C74_schema", "C74_rest_refuted", "C74_schema_refuted"],
      "False: behind a fraction anything after a line feed is ignored; one-digit fields, a blank before the day, t and digits of other scripts are "
      "taken; eight digits of fraction are refused. The exact set of texts taken and the value of each is proved, both ways; the schema's "
      "texts with up to seven digits of fraction are read as what they say.")
claim("C75", "partial", ["C75_version_taken", "C75_version_refused", "C75_version_one", "C75_version_net", "C75_version_refuted", "C75_guid_taken",
      "C75_guid_refused", "C75_guid_one", "C75_guid_net", "C75_guid_refuted", "C75_elements", "C75_bool_taken", "C75_bool_false", "C75_bool_refuted"],
      "False: uuid.UUID takes hyphens, braces and the words urn: and uuid: almost anywhere and 32 characters that are not 32 digits; versions may have "
      "numbers of any size, digits of other scripts and a line feed at the end; 1 is read as false. The exact set of texts taken and the value of "
      "each is proved, both ways, and everything .NET writes is read right.")
claim("C76", "partial", ["C76_taken", "C76_refused", "C76_one", "C76_element", "C76_bytes", "C76_schema", "C76_rest_refuted", "C76_junk_refuted"],
      "False: what is behind the first padding is dropped, foreign characters are passed over, padding alone is taken. The exact set of texts taken "
      "and the bytes of each is proved, both ways; every xs:base64Binary is read right.")
claim("C77", "partial", ["C77_arrives", "C77_document", "C77_texts", "C77_null_refuted", "C77_namespace_refuted"],
      "False: a null Name is held as a list with one null in it, and a client given None sends such a list; a namespace given as one text is sent "
      "as its characters. Every other request is proved to arrive as asked.")
claim("C78", "proved", ["C78_error", "C78_informational"],
      "Composes C56 with the serializer, the XML text and the messages. The properties the record classes declare are not put on the object that is "
      "read; C56 takes any set of them.")
claim("C79", "partial", ["C79_roundtrip", "C79_copies", "C79_endless", "C79_ends_iff", "C79_sharing_refuted", "C79_itself_refuted"],
      "False: the object arrives once per mention, always (C79_copies), and an error record about itself, or any cycle without an object CLIXML can "
      "refer back to, is never finished; that is the only obstacle (C79_ends_iff). Every other graph is proved to be written and to arrive with its content and the rest of its sharing.")
claim("C80", "partial", ["C80_event", "C80_information", "C80_numbers", "C80_tag_refuted"],
      "False: a single tag given as a text is sent as its characters. Everything else is proved.")
claim("C81", "partial", ["C81_total", "C81_closed", "C81_reference", "C81_value", "C81_without", "C81_new", "C81_inside_refuted", "C81_nothing_refuted"],
      "False: a reference inside the element gets the object as read, not what the method makes of it, and a method that returns None leaves the object as "
      "read under its number. References after the element, the object given to the method, termination, closedness and documents without such classes are proved.")
claim("C82", "partial", ["C82_kept", "C82_parts", "C82_list", "C82_queue", "C82_table", "C82_object", "C82_element", "C82_plain", "C82_exception_refuted"],
      "False of error records: reading one adds its invocation info to its exception, so of two records about one exception the first ends with the "
      "invocation info of the second. Proved for every set of methods that spare older objects (and so for reading without methods). Keys that are objects are not covered.")
claim("C83", "partial", ["C83_exact", "C83_type", "C83_unique", "C83_sum", "C83_divmod", "C83_order_refuted", "C83_power_refuted", "C83_float_refuted"],
      "False of the order: the first number decides, so 1 + PSByte(255) is a plain 256 and sum() never has a type; PSInt(2) ** -1 is 0; PSInt(2) + 0.5 is "
      "refused although 0.5 + PSInt(2) is not. With the type of the first number the statement is an equivalence (C83_exact).")
claim("C84", "partial", ["C84_round", "C84_apart", "C84_reads", "C84_one", "C84_refused", "C84_schema", "C84_written_partial", "C84_special_refuted", "C84_written_refuted", "C84_range_refuted"],
      "False of the form: a decimal with zeros left out on the right, or worth less than 10^-6 with more than six places, is written with an exponent (0.0000001 as 1E-7), and NaN as NAN; "
      "C84_written_partial says exactly which numbers are written as xs:decimal. No bound of System.Decimal is checked. Round trip, acceptance and schema texts are proved.")
claim("C85", "partial", ["C85_round", "C85_apart", "C85_reads", "C85_one", "C85_refused", "C85_exact", "C85_schema", "C85_written_partial", "C85_short", "C85_length", "C85_nan_refuted", "C85_single_refuted"],
      "False of two things: NaN is written as NAN, which is no xs:double, and a PSSingle keeps 53 bits, so 0.1 read for one is nothing System.Single holds. "
      "Round trip, acceptance, correct rounding and schema texts are proved; C85_written_partial is the form of everything but NaN. No number of fewer digits reads back (C85_short), and a text has 24 characters at most.")
claim("C86", "partial", ["C86_serves", "C86_unserved", "C86_message", "C86_package", "C86_one", "C86_stays", "C86_raised", "C86_keyerror", "C86_silent_refuted", "C86_module_refuted"],
      "False of the last part: an event class of anything (typing.Any) from another module is registered without an error and never used, and whether a module is the package's own "
      "is asked for with `in`, so that one called events or core counts as it. Everything else is proved for any sequence of declarations.")
claim("C87", "partial", ["C87_made", "C87_refused", "C87_range", "C87_value", "C87_round", "C87_derived", "C87_copy_refuted", "C87_inherit_refuted"],
      "False of the range in two ways: a member copied from another enumeration is not checked, and base_type is not passed on to derived classes, which are of PSInt unless they say "
      "otherwise. Proved for classes that copy no members. Flags, whose combinations are no members, and members declared with tuples or auto() are left out.")
claim("C88", "partial", ["C88_op", "C88_refused", "C88_row", "C88_base", "C88_sum_refuted", "C88_back_refuted"],
      "False of the last part: the operators return type(self)(...), which looks a member up, so that the union of two members or a member plus one is a ValueError wherever the result is "
      "in range but no member. The rest is proved for any class and any row of operators. The plain remainder of divmod and flags (which have operators of their own) are left out.")
claim("C89", "partial", ["C89_value", "C89_closed", "C89_other", "C89_inverse", "C89_twice", "C89_int_refuted", "C89_twice_refuted"],
      "For Python from 3.11 on, where IntFlag's methods are Flag's. False twice there: with an int of Python as the other operand the result is a plain int, even if the value is a flag, and "
      "inverting drops bits that are only declared together with others, so that twice inverted is not the flag; C89_twice has it for flags of single bits. Negative values and the branch "
      "for older Pythons (_create_pseudo_member_) are left out.")
claim("C90", "proved", ["C90_power", "C90_method", "C90_error", "C90_there"],
      "The inverse is searched for in the model, where int.__pow__ uses Euclid's algorithm. Operands are ints.")
