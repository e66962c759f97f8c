{"id": "C01", "title": "A signed message is accepted at most once", "statement": "In the lifetime of a process whose clock does not run backwards, no two incoming signed messages carrying the same ReplayProtect timestamp and nonce are both accepted: the second is rejected with a ValueError, however many other messages arrive in between and however long after the first one it is replayed.", "quantifier": "every finite history of replay-protect checks, every timestamp/nonce in each message, every non-decreasing sequence of clock readings (also within one check), every iteration order of the nonce cache", "why_tests_cant": "The nonce cache forgets entries while time passes; only an invariant over all histories shows that an entry is never forgotten while its message would still be fresh.", "anchors": ["openleadr/messaging.py:_verify_replay_protect", "openleadr/messaging.py:_update_nonce_cache", "openleadr/messaging.py:REPLAY_PROTECT_MAX_TIME_DELTA"]}
{"id": "C02", "title": "Replay check: stale is rejected, fresh and unseen is accepted, memory is bounded", "statement": "A check succeeds exactly when the ReplayProtect element has a well-formed timestamp and a nonce, the timestamp is at most five seconds old at the time of the check, and the pair was not accepted before within the retained window; a rejected check leaves the nonce cache unchanged; after a successful check the cache holds no pair older than five seconds at the moment it was examined and has lost no pair that is still fresh.", "quantifier": "every cache content, every timestamp text and nonce, every clock", "why_tests_cant": "Boundary behaviour (exactly five seconds old) and cache content have to hold for all caches, not for the ones a test builds.", "anchors": ["openleadr/messaging.py:_verify_replay_protect", "openleadr/messaging.py:_update_nonce_cache"]}
{"id": "C03", "title": "Over TLS a message reaches its handler only after authentication", "statement": "When the server has a VEN lookup (ven_lookup or fingerprint_lookup) and the request came in over TLS with a ven_id in the payload, the message handler runs only if the connection has a client certificate whose fingerprint equals the one registered for that ven_id and, when signature verification is on, the message is signed with a certificate with that fingerprint, the signature verifies and the replay check passes. In every other case the handler is not run.", "quantifier": "every request (headers, body, TLS state, certificates), every lookup result, every server configuration", "why_tests_cant": "The claim is a universal statement about all paths through the request pipeline, including all error paths.", "anchors": ["openleadr/service/vtn_service.py:VTNService.handler", "openleadr/messaging.py:authenticate_message", "openleadr/messaging.py:validate_xml_signature"]}
{"id": "C04", "title": "Every request outcome is one of the documented HTTP statuses and errors never leak handler effects", "statement": "Whatever the request, the VTN answers with HTTP 200, 400, 403 or 500: XML that fails the schema gives 400, a fingerprint mismatch or bad signature 403, an OpenADR protocol error gives 200 with the protocol's response code, any other exception 500; and a request that is refused before dispatch (schema, vtn_id, unknown VEN, authentication) causes no handler call. A request with the wrong content type is refused with HTTP 400.", "quantifier": "every request and every behaviour of the user's handlers (returning anything or raising anything)", "why_tests_cant": "Handlers are arbitrary user code; the mapping must hold for every exception and every pipeline stage.", "anchors": ["openleadr/service/vtn_service.py:VTNService.handler", "openleadr/errors.py"]}
{"id": "C05", "title": "Requests from unknown VENs are answered with a re-registration request", "statement": "With a ven_lookup configured, any message other than oadrCreatePartyRegistration and oadrQueryRegistration whose ven_id is unknown (lookup returns None) or not registered (no registration_id) is answered with oadrRequestReregistration for that ven_id and does not reach a handler; a message whose vtn_id differs from the server's is answered with response code 452 and does not reach a handler.", "quantifier": "every message type, payload and lookup result", "why_tests_cant": "Depends on ordering of checks in the pipeline for all message types.", "anchors": ["openleadr/service/vtn_service.py:VTNService.handler"]}
{"id": "C06", "title": "Every protocol error is reported in the message type that belongs to the request", "statement": "When handling a message ends in an OpenADR protocol error (or the message type is not supported by the endpoint), the VTN answers with the response message type that corresponds to the request type, carrying the error's response code and description and the request's request_id.", "quantifier": "every message type, every protocol error", "why_tests_cant": "Must hold for each (message type, error) combination, including ones nobody wrote a test for.", "anchors": ["openleadr/service/vtn_service.py:VTNService.error_response", "openleadr/service/vtn_service.py:VTNService.handle_message", "openleadr/errors.py"]}
{"id": "C07", "title": "Certificate fingerprints identify the last ten hash bytes", "statement": "The fingerprint of a certificate is 29 characters: ten upper-case hexadecimal byte values separated by colons; two certificates have the same fingerprint exactly when the last ten bytes of their SHA-256 digests agree.", "quantifier": "every digest (SHA-256 is an arbitrary 32-byte function)", "why_tests_cant": "Injectivity over all digests is not testable.", "anchors": ["openleadr/utils.py:certificate_fingerprint_from_der"]}
{"id": "C08", "title": "Timestamps survive the wire", "statement": "Formatting any timezone-aware datetime (years 1000-9999 in UTC) and parsing the text back gives a UTC datetime that denotes the same instant to the microsecond; parsing never confuses two different instants.", "quantifier": "every aware datetime and UTC offset", "why_tests_cant": "The space of datetimes (leap years, offsets crossing midnight/year boundaries, microseconds) cannot be enumerated.", "anchors": ["openleadr/utils.py:datetimeformat", "openleadr/utils.py:parse_datetime"]}
{"id": "C09", "title": "Parsing a timestamp: accepted language and value", "statement": "parse_datetime returns a UTC datetime exactly for texts that begin with YYYY-MM-DDThh:mm:ss, an optional fraction and Z; digits of the fraction beyond the sixth are dropped and shorter fractions are scaled; impossible calendar fields raise ValueError; any other text is returned unchanged.", "quantifier": "every string", "why_tests_cant": "Quantifies over all strings.", "anchors": ["openleadr/utils.py:parse_datetime"]}
{"id": "C10", "title": "Durations survive the wire", "statement": "Formatting any duration and parsing the text back gives the same duration.", "quantifier": "every timedelta", "why_tests_cant": "Quantifies over all durations, including negative ones and those with fractional seconds.", "anchors": ["openleadr/utils.py:timedeltaformat", "openleadr/utils.py:parse_duration"]}
{"id": "C11", "title": "RFC5545 durations are understood", "statement": "parse_duration returns the value of every RFC 5545 duration (optional sign, weeks, or days/hours/minutes/seconds; plus the ISO years=365 days and months=30 days), and raises ValueError for text that does not start with a duration.", "quantifier": "every string; every combination of designators and values", "why_tests_cant": "The grammar is infinite.", "anchors": ["openleadr/utils.py:parse_duration"]}
{"id": "C12", "title": "Flattening a message does not alter its text", "statement": "flatten_xml yields text without line feeds, keeps every non-blank character in order, is idempotent, and leaves a message that is a single trimmed line untouched.", "quantifier": "every message text", "why_tests_cant": "Quantifies over all strings.", "anchors": ["openleadr/utils.py:flatten_xml"]}
{"id": "C13", "title": "Booleans survive the wire", "statement": "booleanformat produces 'true'/'false' for booleans and those two strings, raises ValueError for anything else, and parse_boolean inverts it.", "quantifier": "every value", "why_tests_cant": "Quantifies over all values of any type.", "anchors": ["openleadr/utils.py:booleanformat", "openleadr/utils.py:parse_boolean"]}
{"id": "C14", "title": "Identifiers and text survive the wire unchanged", "statement": "A string that one party puts in an identifier or text field of a message is the string the other party sees in its payload.", "quantifier": "every string without XML mark-up characters", "why_tests_cant": "Quantifies over all strings; the receiving side guesses types from the text.", "anchors": ["openleadr/utils.py:normalize_dict", "openleadr/messaging.py:parse_message"]}
{"id": "C15", "title": "Every distributed event arrives complete", "statement": "Parsing the XML tree of an oadrDistributeEvent gives a list with exactly one entry per event, in order, each with its identifier, modification number, status, response_required, active period, and one signal per transmitted signal with its intervals in order and with a measurement in the uniform representation, whether there is one event or many, one signal or many, one interval or many, with or without targets.", "quantifier": "every number of events, signals, intervals and targets, and all field values in the stated domains", "why_tests_cant": "The parser treats single and repeated elements differently; all combinations must work.", "anchors": ["openleadr/utils.py:normalize_dict", "openleadr/templates/oadrDistributeEvent.xml", "openleadr/templates/parts/eiEventSignal.xml"]}
{"id": "C16", "title": "Every opt response arrives complete", "statement": "Parsing the XML tree of an oadrCreatedEvent gives one event_response per transmitted response, in order, each with its event_id, modification_number, opt_type and response_code, whether there is one or many.", "quantifier": "every number of responses and all field values in the stated domains", "why_tests_cant": "Single and repeated elements are represented differently by the XML layer.", "anchors": ["openleadr/utils.py:normalize_dict", "openleadr/templates/oadrCreatedEvent.xml"]}
{"id": "C17", "title": "Every report value arrives complete", "statement": "Parsing the XML tree of an oadrUpdateReport gives one report per transmitted report and one interval per transmitted interval, in order, each with its dtstart, r_id and value; a payload transmitted as an integer arrives as well as one transmitted as a float.", "quantifier": "every number of reports and intervals and all values in the stated domains", "why_tests_cant": "Single and repeated elements are represented differently by the XML layer.", "anchors": ["openleadr/utils.py:normalize_dict", "openleadr/templates/oadrUpdateReport.xml"]}
{"id": "C18", "title": "Looking up by nested key finds the first item that has the value there", "statement": "find_by returns the first item whose value at each given path equals the given value (or is one of the given tuple's members), and None exactly when there is no such item.", "quantifier": "every list or dict of (nested) dicts and dataclass objects, every path, every number of criteria", "why_tests_cant": "Quantifies over all nested structures and paths.", "anchors": ["openleadr/utils.py:find_by", "openleadr/utils.py:hasmember", "openleadr/utils.py:getmember"]}
{"id": "C19", "title": "pop_by removes exactly what it returns", "statement": "pop_by returns what find_by would return, removes exactly one item from the list - the returned one - and leaves all others in order; it removes nothing when nothing matches.", "quantifier": "every list, path and value", "why_tests_cant": "Quantifies over all lists (duplicates, equal items).", "anchors": ["openleadr/utils.py:pop_by"]}
{"id": "C20", "title": "Grouping is a partition", "statement": "group_by puts every item in exactly one group, under the value found at the key path, keeps the order of items in each group, and creates no empty groups; the groups appear in order of first occurrence.", "quantifier": "every list of nested dicts and key path", "why_tests_cant": "Quantifies over all lists.", "anchors": ["openleadr/utils.py:group_by"]}
{"id": "C21", "title": "Targets grouped and ungrouped are the same targets", "statement": "Grouping any list of targets by type keeps every (type, value) pair exactly as often as given and in order per type; ungrouping a grouped dict of non-empty lists and regrouping returns the same dict; ungrouping and grouping loses no target.", "quantifier": "every list of targets, every grouped dict", "why_tests_cant": "Quantifies over all lists.", "anchors": ["openleadr/utils.py:group_targets_by_type", "openleadr/utils.py:ungroup_targets_by_type"]}
{"id": "C22", "title": "Member access on nested dicts and objects is consistent", "statement": "What setmember stores under a path is what getmember returns for that path, hasmember is true for it, other paths are unaffected, and getmember with a default never raises for a missing last member.", "quantifier": "every nested structure, path and value", "why_tests_cant": "Quantifies over all structures and paths.", "anchors": ["openleadr/utils.py:getmember", "openleadr/utils.py:setmember", "openleadr/utils.py:hasmember"]}
{"id": "C23", "title": "The recurring schedule never fires more often than asked and has bounded jitter", "statement": "For intervals that divide the minute, hour or day, the cron settings fire exactly once per interval; jitter, when requested, is at most a tenth of the interval and at most five minutes; every positive whole-second interval gives a usable schedule whose firings are never further apart than the next larger unit.", "quantifier": "every interval", "why_tests_cant": "Quantifies over all intervals and all instants.", "anchors": ["openleadr/utils.py:cron_config"]}
{"id": "C24", "title": "The event status follows the clock", "statement": "determine_event_status says 'completed' from the end of the active period onwards, 'active' from its start until its end, 'near' during the ramp-up period before the start and 'far' before that; as time passes the status only moves forward far-near-active-completed; every event with a positive duration completes.", "quantifier": "every active period, every instant", "why_tests_cant": "Quantifies over all instants and periods; boundaries matter.", "anchors": ["openleadr/utils.py:determine_event_status"]}
{"id": "C25", "title": "The active period covers the intervals exactly", "statement": "The active period computed from a list of intervals starts at the earliest interval start and ends at the latest interval end; computing it per signal first and then over the signals gives the same period as computing it over all intervals together; an empty list is an error.", "quantifier": "every non-empty list of intervals", "why_tests_cant": "Quantifies over all lists and orders of intervals.", "anchors": ["openleadr/utils.py:get_active_period_from_intervals", "openleadr/server.py:OpenADRServer.add_raw_event", "openleadr/objects.py:Event.__post_init__"]}
{"id": "C26", "title": "Events are ordered by the OpenADR rules", "statement": "order_events returns the same events, none lost or duplicated, active events before all others; among active events higher priority comes first (1 is highest, 0 or missing lowest) and, at equal priority, the earlier start first; the others are ordered by start; limit and offset select the corresponding slice.", "quantifier": "every list of events, every clock, every limit and offset", "why_tests_cant": "Sorting correctness is a statement about all lists.", "anchors": ["openleadr/utils.py:order_events"]}
{"id": "C27", "title": "A cancelled event stays cancelled, and refreshing statuses touches nothing else", "statement": "Preparing events for distribution never changes the status of a cancelled event, sets the status of every other event to the one its active period implies at that time, and changes the creation time of exactly those events whose status changed; nothing else in an event changes.", "quantifier": "every list of events and every clock", "why_tests_cant": "Quantifies over all event lists and times.", "anchors": ["openleadr/utils.py:order_events"]}
{"id": "C28", "title": "A new event's ramp-up period reaches the VEN", "statement": "The ramp_up_period, notification_period and recovery_period given to add_event are part of the event that is distributed, and the event is reported 'near' during its ramp-up period.", "quantifier": "every add_event call", "why_tests_cant": "Must hold for all periods and all times of distribution.", "anchors": ["openleadr/server.py:OpenADRServer.add_event", "openleadr/server.py:OpenADRServer.add_raw_event"]}
{"id": "C29", "title": "add_event validates its input and targets the right party", "statement": "add_event either raises ValueError and leaves the queue unchanged, or queues exactly one event for that VEN with the given signal and intervals, modification number 0 and the given targets - a single target, the ungrouped targets_by_type, the list of targets, or the VEN itself when none are given; with an external poll handler it queues nothing.", "quantifier": "every argument combination", "why_tests_cant": "The combinations of optional arguments are unbounded.", "anchors": ["openleadr/server.py:OpenADRServer.add_event", "openleadr/server.py:OpenADRServer.add_raw_event"]}
{"id": "C30", "title": "A VEN only ever receives its own events", "statement": "Every event in any oadrDistributeEvent sent to a VEN was added for that VEN; operations for one VEN never change what is queued for another.", "quantifier": "every interleaving of add_event, cancel_event, polls, event requests and responses of any number of VENs", "why_tests_cant": "Interference appears only in particular histories and interleavings.", "anchors": ["openleadr/service/event_service.py:EventService", "openleadr/service/poll_service.py:PollService.poll", "openleadr/server.py:OpenADRServer.add_raw_event", "openleadr/server.py:OpenADRServer.cancel_event"]}
{"id": "C31", "title": "A queued event is not lost", "statement": "Once added, an event stays queued for its VEN until it has been completed or its cancellation has been confirmed by that VEN; until then every event request by the VEN returns it.", "quantifier": "every history and interleaving", "why_tests_cant": "A claim about all histories.", "anchors": ["openleadr/service/event_service.py:EventService.request_event", "openleadr/service/event_service.py:EventService.created_event", "openleadr/server.py:OpenADRServer.add_raw_event"]}
{"id": "C32", "title": "An update is announced at the next poll", "statement": "After an event has been added for or cancelled at a VEN, the VEN's next completed poll distributes its events - also when another poll of that VEN was in progress at the time - and further polls answer with an empty oadrResponse until the next update.", "quantifier": "every interleaving of polls, their delivery callbacks and updates", "why_tests_cant": "A race between a suspended poll and an update shows only under particular schedules.", "anchors": ["openleadr/service/poll_service.py:PollService.poll", "openleadr/service/event_service.py:EventService.request_event", "openleadr/server.py:OpenADRServer.add_raw_event"]}
{"id": "C33", "title": "A completed event is communicated one last time and then removed", "statement": "The first distribution in which an event is found completed still contains that event with status completed, and no later distribution does.", "quantifier": "every queue, every time, every history", "why_tests_cant": "Depends on the queue's contents and on list aliasing that differs between one and several events.", "anchors": ["openleadr/service/event_service.py:EventService.request_event", "openleadr/utils.py:order_events"]}
{"id": "C34", "title": "The opt callback of an event is called at most once, with the VEN's answer", "statement": "The callback given with an event is invoked (or its future completed) at most once, only when a VEN that has the event queued answers with the current modification number, and it receives that VEN's id, the event's id and the VEN's opt choice; a future that is already done is never completed again.", "quantifier": "every history and interleaving of responses", "why_tests_cant": "Duplicated and concurrent responses appear only in particular histories.", "anchors": ["openleadr/service/event_service.py:EventService.created_event"]}
{"id": "C35", "title": "A response to an unknown event or to an outdated version has no effect", "statement": "A response with an event_id or modification number that is not queued for the VEN is answered with 'invalid id' (452) and changes nothing; a response to an event that was already completed and removed is acknowledged.", "quantifier": "every queue and every response", "why_tests_cant": "Quantifies over all states and responses.", "anchors": ["openleadr/service/event_service.py:EventService.created_event"]}
{"id": "C36", "title": "Cancelling an event bumps its version and its confirmation removes it", "statement": "cancel_event changes exactly the first queued event with that id at that VEN: status cancelled, modification number one higher; the event is distributed as cancelled from then on; when the VEN confirms with the new modification number it is removed; cancelling something unknown changes nothing.", "quantifier": "every state and history", "why_tests_cant": "Quantifies over all states and histories.", "anchors": ["openleadr/server.py:OpenADRServer.cancel_event", "openleadr/service/event_service.py:EventService.created_event", "openleadr/utils.py:increment_event_modification_number"]}
{"id": "C37", "title": "Modification numbers never decrease", "statement": "From one distribution to any later one, the modification number reported for an event never goes down, and a change from not cancelled to cancelled always comes with a higher number.", "quantifier": "every history and interleaving", "why_tests_cant": "A monotonicity claim over all histories.", "anchors": ["openleadr/server.py:OpenADRServer.cancel_event", "openleadr/utils.py:order_events"]}
{"id": "C38", "title": "Distributed events satisfy the OpenADR conformance rules or are refused", "statement": "If preparing an oadrDistributeEvent succeeds, then in every event all signals' interval durations add up to the active period's duration, every SIMPLE payload is 0, 1, 2 or 3, response_required is 'always' or 'never', there is a creation time, and targets and targets_by_type agree; otherwise a ValueError is raised.", "quantifier": "every list of events", "why_tests_cant": "Quantifies over all messages.", "anchors": ["openleadr/preflight.py:_preflight_oadrDistributeEvent"]}
{"id": "C39", "title": "Preflight changes nothing that is already right", "statement": "An event that already satisfies the rules is sent unchanged except for added namespaces; in particular the current value of an active SIMPLE event is preserved; running the check twice gives the same message.", "quantifier": "every list of events", "why_tests_cant": "Quantifies over all messages.", "anchors": ["openleadr/preflight.py:_preflight_oadrDistributeEvent"]}
{"id": "C40", "title": "Every predefined measurement can be sent", "statement": "Every measurement name for which OpenLEADR defines a description and units has an XML namespace, keeps its name when wrapped in a Measurement, and passes preflight.", "quantifier": "every predefined measurement", "why_tests_cant": "The tables must agree on all entries and for every scale and power attribute.", "anchors": ["openleadr/enums.py:_MEASUREMENT_NAMESPACES", "openleadr/enums.py:_MEASUREMENT_DESCRIPTIONS", "openleadr/objects.py:Measurement.__post_init__"]}
{"id": "C41", "title": "Report measurements are validated", "statement": "validate_report_measurement_dict accepts a measurement exactly when it has name, description and unit, a known name comes with its description (up to letter case, which is corrected) and an acceptable unit, and power measurements carry complete power attributes; after acceptance the name is a predefined one or customUnit.", "quantifier": "every measurement dict", "why_tests_cant": "Quantifies over all dicts.", "anchors": ["openleadr/utils.py:validate_report_measurement_dict"]}
{"id": "C42", "title": "Registered report names carry METADATA_ exactly once", "statement": "Preparing an oadrRegisterReport gives every predefined report name the METADATA_ prefix exactly once, however often the same reports are registered, leaves other names alone, and the VTN recovers the original name by removing the prefix.", "quantifier": "every list of reports, any number of registrations", "why_tests_cant": "Quantifies over all report lists and repeated registrations.", "anchors": ["openleadr/preflight.py:_preflight_oadrRegisterReport", "openleadr/service/report_service.py:ReportService.register_report"]}
{"id": "C43", "title": "Events, signals and opts are consistent once constructed", "statement": "Constructing an Event, EventSignal or Opt either raises ValueError or yields an object with a permitted signal type/name (opt type/reason), in which targets and targets_by_type describe the same targets, and, for an Event, with an active period that covers its intervals and a status that fits the current time.", "quantifier": "every combination of constructor arguments", "why_tests_cant": "Quantifies over all arguments.", "anchors": ["openleadr/objects.py:Event.__post_init__", "openleadr/objects.py:EventSignal.__post_init__", "openleadr/objects.py:Opt.__post_init__"]}
{"id": "C44", "title": "Report request tuples are validated one by one", "statement": "After validation every entry returned by a handler is either untouched and well-formed (r_id, callable, timedelta[, timedelta]) or replaced by None; positions and lengths are unchanged, and well-formed entries are never dropped.", "quantifier": "every list of handler results", "why_tests_cant": "Quantifies over all handler results.", "anchors": ["openleadr/utils.py:validate_report_request_tuples"]}
{"id": "C45", "title": "Requested report data points are exactly the ones asked for", "statement": "The oadrRegisteredReport contains one report request per offered report for which at least one valid tuple was returned, with exactly the asked-for r_ids, each with the callback registered under (report_request_id, r_id); invalid tuples are skipped without affecting the valid ones; the requested granularity is the smallest sampling interval when they differ.", "quantifier": "every list of offered reports and every handler result", "why_tests_cant": "Quantifies over all offers and handler results.", "anchors": ["openleadr/service/report_service.py:ReportService.register_report"]}
{"id": "C46", "title": "Report values are routed to the callback that asked for them", "statement": "For each incoming report, the callback registered for (report_request_id, r_id) is called exactly once with exactly the (dtstart, value) pairs of the intervals for that r_id, in order, and no other callback is called; values for which nobody asked are delivered to no callback.", "quantifier": "every update message and every set of registered callbacks", "why_tests_cant": "Quantifies over all messages and callback tables.", "anchors": ["openleadr/service/report_service.py:ReportService.update_report", "openleadr/utils.py:group_by"]}
{"id": "C47", "title": "The VEN answers every event exactly once per message with the handler's choice", "statement": "For every oadrDistributeEvent, the VEN sends one oadrCreatedEvent containing exactly one response, in order, for each event that requires a response and is not completed, with that event's id and modification number and an opt type that is optIn or optOut: the handler's return value if it is one of these, optOut otherwise.", "quantifier": "every message, every handler behaviour, every client state", "why_tests_cant": "Handlers are arbitrary user code; the state after any history matters.", "anchors": ["openleadr/client.py:OpenADRClient._on_event"]}
{"id": "C48", "title": "An unchanged event gets the same answer again without bothering the user", "statement": "When an event is received again with the same modification number, neither on_event nor on_update_event is called for it and the VEN repeats the opt type it sent before.", "quantifier": "every history of messages", "why_tests_cant": "A claim about all histories (including completed and cancelled events and failing handlers).", "anchors": ["openleadr/client.py:OpenADRClient._on_event", "openleadr/client.py:OpenADRClient._event_cleanup"]}
{"id": "C49", "title": "New events go to on_event, changed ones to on_update_event", "statement": "on_event is called for exactly those events whose id is not among the remembered events, on_update_event for exactly those whose id is remembered with another modification number, each exactly once per message; the VEN then remembers exactly one copy per event id: the latest.", "quantifier": "every history of messages", "why_tests_cant": "A claim about all histories.", "anchors": ["openleadr/client.py:OpenADRClient._on_event"]}
{"id": "C50", "title": "One failing event does not change the answers for others", "statement": "If handling one event of a message raises an exception, the VEN opts out of that event; the answers given for other events are those of their handlers, and what the VEN remembers agrees with what it told the VTN.", "quantifier": "every message and handler behaviour", "why_tests_cant": "Quantifies over all messages and all exceptions.", "anchors": ["openleadr/client.py:OpenADRClient._on_event"]}
{"id": "C51", "title": "Cleaning up forgets exactly the irrelevant events", "statement": "The periodic clean-up removes exactly the cancelled and completed events from memory and keeps all others in order; the status log sets every remembered, not cancelled event to the status its active period implies.", "quantifier": "every list of remembered events and every time", "why_tests_cant": "Quantifies over all lists (index-based removal while iterating).", "anchors": ["openleadr/client.py:OpenADRClient._event_cleanup", "openleadr/client.py:OpenADRClient._event_status_log"]}
{"id": "C52", "title": "Each report request collects its own data points", "statement": "Every report request in an oadrCreateReport/oadrRegisteredReport message is stored with exactly the r_ids named in that request that exist in the report with matching measurement and permitted granularity, in order.", "quantifier": "every message with any number of requests", "why_tests_cant": "Quantifies over all messages.", "anchors": ["openleadr/client.py:OpenADRClient.create_report"]}
{"id": "C53", "title": "Incremental reports contain every sample exactly once", "statement": "When each data point callback returns one value per sampling, the VEN queues a report after every floor(report_back_duration/granularity) samplings, containing exactly the values sampled since the previous report, each once and in order, with dtstart the earliest sample time; nothing is lost between reports.", "quantifier": "every sequence of samplings, every number of data points, every granularity and report interval", "why_tests_cant": "A claim about unbounded sequences of samplings.", "anchors": ["openleadr/client.py:OpenADRClient.update_report"]}
{"id": "C54", "title": "Reports are sent in the order they were queued, and failures do not stop the queue", "statement": "The report worker sends every queued report once, in queue order; a failed request does not prevent later reports from being sent; a cancel_report in the VTN's answer is acted upon.", "quantifier": "every sequence of queued reports and server answers", "why_tests_cant": "A claim about all sequences of answers, including empty and failed ones.", "anchors": ["openleadr/client.py:OpenADRClient._report_queue_worker", "openleadr/client.py:OpenADRClient._perform_request"]}
{"id": "C55", "title": "add_report returns the identifiers under which the callback is registered", "statement": "add_report returns (report_specifier_id, r_id) such that the callback is found under that pair, the report with that specifier id contains a description with that r_id with the given measurement, scale and sampling rate, and reports added earlier are unchanged.", "quantifier": "every sequence of add_report calls", "why_tests_cant": "A claim about all sequences of calls (shared objects).", "anchors": ["openleadr/client.py:OpenADRClient.add_report"]}
{"id": "C56", "title": "A cancelled report is sent no more", "statement": "After cancel_report for a request id, its recurring job is removed and the request is forgotten, other requests are unaffected; cancelling an unknown id changes nothing.", "quantifier": "every state and payload", "why_tests_cant": "Quantifies over all states.", "anchors": ["openleadr/client.py:OpenADRClient.cancel_report"]}
{"id": "C57", "title": "Registration is granted exactly when the handler grants it", "statement": "oadrCreatePartyRegistration is answered with the handler's (ven_id, registration_id) exactly when the handler returned a pair; with None or False the answer carries no identifiers, so that the VEN considers itself not registered.", "quantifier": "every handler result", "why_tests_cant": "Quantifies over all handler results.", "anchors": ["openleadr/service/registration_service.py:RegistrationService.create_party_registration", "openleadr/client.py:OpenADRClient.create_party_registration"]}
{"id": "C58", "title": "The VEN's registration state follows the VTN's answer", "statement": "After create_party_registration the VEN holds the registration id from a positive answer, none when the answer has none, and its old one when the request failed; it adopts the VTN's ven_id; it polls at the requested frequency; after a confirmed cancellation it holds no registration, and it can register again.", "quantifier": "every answer and every history of registrations and cancellations", "why_tests_cant": "A claim about all histories of answers.", "anchors": ["openleadr/client.py:OpenADRClient.create_party_registration", "openleadr/client.py:OpenADRClient.cancel_party_registration", "openleadr/client.py:OpenADRClient.on_cancel_party_registration"]}
{"id": "C59", "title": "Two servers in one process do not influence each other", "statement": "Constructing a second OpenADRServer does not change the behaviour of the first: its VEN lookup, signature verification setting and signing certificate.", "quantifier": "every sequence of server constructions", "why_tests_cant": "A claim about all configurations and orders of construction.", "anchors": ["openleadr/server.py:OpenADRServer.__init__", "openleadr/service/vtn_service.py:VTNService"]}
{"id": "C60", "title": "Hooks run in order and cannot break message handling", "statement": "All hooks for a point in the request chain are run, in the order of registration, even if some raise, and the request proceeds as if there were none.", "quantifier": "every list of hooks and every behaviour of theirs", "why_tests_cant": "Hooks are arbitrary user code.", "anchors": ["openleadr/client.py:OpenADRClient._execute_hooks", "openleadr/client.py:OpenADRClient.add_hook", "openleadr/hooks.py"]}
{"id": "C61", "title": "Results of handlers keep their order", "statement": "gather_if_required returns the results of plain values and coroutines in the given order, whatever mix of them is given and in whatever order the coroutines finish.", "quantifier": "every list of plain values and coroutines and every completion order", "why_tests_cant": "Quantifies over schedules.", "anchors": ["openleadr/utils.py:gather_if_required", "openleadr/utils.py:await_if_required"]}
{"id": "C62", "title": "A VEN only acts on validated messages, and a failed request is contained", "statement": "A request gives the VEN a message exactly when the answer was HTTP 200 with a body that passes the XML schema and, when the VTN's fingerprint is configured, carries a valid signature; every failure (no connection, other status, invalid XML, wrong fingerprint, bad signature, empty answer) gives the failure value (None, {}) that the callers expect and never an exception.", "quantifier": "every answer, every failure of the libraries, every set of hooks", "why_tests_cant": "Each failure mode needs its own server; the claim is about all of them and about their absence being the only way to a message.", "anchors": ["openleadr/client.py:OpenADRClient._perform_request"]}
{"id": "C63", "title": "Every report request of a message is scheduled as it asks", "statement": "For every report request in an oadrCreateReport message that names an offered report: with a granularity and a positive report back duration the VEN gets one recurring job that samples this request at that granularity (or at the report back duration if no granularity is given); a request for a single report is reported once under its own id, at once or at the requested time.", "quantifier": "every message with any number of requests and every state of the VEN", "why_tests_cant": "The combinations of single and recurring requests in one message, in every order, are not enumerable.", "anchors": ["openleadr/client.py:OpenADRClient.create_report"]}
{"id": "C64", "title": "Registration messages arrive as sent", "statement": "The VTN reads from a registration request exactly the settings the VEN sent (registration id, VEN id, profile, transport, address, flags, name; what is not given is absent), and the VEN reads from the answer exactly the ids, profiles with their transports and poll frequency the VTN sent; the cancellation, its confirmation, the query and the reregistration request arrive complete.", "quantifier": "all settings, all numbers of profiles and transports, all plain texts", "why_tests_cant": "Optional fields, lists of any length (one element and several take different paths through the parser) and all texts.", "anchors": ["openleadr/templates/oadrCreatePartyRegistration.xml", "openleadr/templates/oadrCreatedPartyRegistration.xml", "openleadr/utils.py:normalize_dict", "openleadr/messaging.py:parse_message"]}
{"id": "C65", "title": "Report offers arrive as sent", "statement": "The VTN reads from oadrRegisterReport every report and every data point the VEN offers, with its measurement in the uniform representation, in order.", "quantifier": "all numbers of reports and data points with any combination of optional members", "why_tests_cant": "The parser rewrites dicts in place while it walks them; its result depends on the order and mix of data points.", "anchors": ["openleadr/templates/oadrRegisterReport.xml", "openleadr/templates/parts/oadrReportDescription.xml", "openleadr/utils.py:normalize_dict"]}
{"id": "C66", "title": "Report requests arrive as sent", "statement": "The VEN reads from oadrRegisteredReport and oadrCreateReport every report request with its id, specifier, granularity, report back duration, interval and data points, in order.", "quantifier": "all numbers of requests and data points with any combination of optional members", "why_tests_cant": "Nested optional members and lists of one and of several elements.", "anchors": ["openleadr/templates/oadrRegisteredReport.xml", "openleadr/templates/oadrCreateReport.xml", "openleadr/templates/parts/oadrReportRequest.xml", "openleadr/utils.py:normalize_dict"]}
{"id": "C67", "title": "Short messages arrive as sent", "statement": "The lists of pending reports, the answer to a report with the reports to stop, the general response and the requests for events and for the end of a report arrive as they were sent.", "quantifier": "all numbers of ids, all ids on one line", "why_tests_cant": "The number of ids decides whether the parser interprets them.", "anchors": ["openleadr/templates/oadrCreatedReport.xml", "openleadr/templates/oadrUpdatedReport.xml", "openleadr/templates/oadrResponse.xml", "openleadr/utils.py:normalize_dict"]}
{"id": "C68", "title": "Answers refer to their requests and carry what the handler gave", "statement": "The answer to every request that is handled has the request's id in its response, an id of its own, the ids of the VTN and the VEN, and every member that the handler put into it, unchanged.", "quantifier": "all requests, all configurations, all handler results", "why_tests_cant": "All payloads a handler may return, with or without members that the service also sets.", "anchors": ["openleadr/service/vtn_service.py:VTNService.handle_message", "openleadr/service/vtn_service.py:VTNService.handler"]}
{"id": "C69", "title": "Opt messages arrive as sent", "statement": "The VTN reads from oadrCreateOpt exactly the opt that the VEN made (type, reason, market context, availability, event, targets, device class), and the answers and the cancellation arrive complete.", "quantifier": "all opts: any number of targets and availability periods, with or without each optional member", "why_tests_cant": "Lists of zero, one and several elements take different paths through template and parser.", "anchors": ["openleadr/templates/oadrCreateOpt.xml", "openleadr/templates/oadrCreatedOpt.xml", "openleadr/templates/oadrCancelOpt.xml", "openleadr/templates/oadrCanceledOpt.xml", "openleadr/utils.py:normalize_dict"]}
{"id": "C70", "title": "The VEN's list of opts is what the VTN acknowledged", "statement": "The list of opts at the VEN has exactly those opts that the VTN acknowledged and whose cancellation it has not acknowledged, in every interleaving of calls and answers.", "quantifier": "all sequences of create_opt and cancel_opt calls and of answers, in any order, including no answer and failures", "why_tests_cant": "Interleavings of concurrent calls with answers that arrive in any order or not at all.", "anchors": ["openleadr/client.py:OpenADRClient.create_opt", "openleadr/client.py:OpenADRClient.cancel_opt", "openleadr/server.py:OpenADRServer.__init__"]}
{"id": "C71", "title": "Delivery callbacks announce exactly the events that are sent", "statement": "Each time a VEN fetches events, the delivery callback is called exactly for those events that are in the answer and were not sent before, once each.", "quantifier": "all queues, all states of events, all interleavings of the callbacks with other messages and calls", "why_tests_cant": "The queue can change while a callback is awaited; all interleavings matter.", "anchors": ["openleadr/service/event_service.py:EventService.request_event", "openleadr/service/poll_service.py:PollService.poll"]}
{"id": "C72", "title": "The VTN notices reports that a VEN did not create", "statement": "Whenever a VEN confirms reports, the VTN names exactly those requests of the VEN's last registration that the VEN has not confirmed so far, in this or any earlier message.", "quantifier": "all sequences of registrations, confirmations and reports of any VENs", "why_tests_cant": "The answer depends on all earlier messages of the VEN, and must not depend on those of others.", "anchors": ["openleadr/service/report_service.py:ReportService.created_report", "openleadr/service/report_service.py:ReportService.on_created_report", "openleadr/service/report_service.py:ReportService.register_report"]}
{"id": "C73", "title": "Report data reach the callback given for them, for the whole life of the VTN", "statement": "After any sequence of messages, each data point in a received report goes once, with all its values in order, to the callback that was given last for that data point of that request, and nothing else is delivered.", "quantifier": "all sequences of registrations, confirmations and reports of any number of VENs; all received reports", "why_tests_cant": "Unbounded sequences of registrations whose callbacks accumulate in one dictionary.", "anchors": ["openleadr/service/report_service.py:ReportService.update_report", "openleadr/service/report_service.py:ReportService.register_report"]}
{"id": "C74", "title": "Report data are accepted only from the VEN that was asked", "statement": "A callback receives data only from a VEN for whose offered report it was given.", "quantifier": "all sequences of messages, all senders, all request ids", "why_tests_cant": "Tests use honest VENs; the claim is about all senders and all ids they may name.", "anchors": ["openleadr/service/report_service.py:ReportService.update_report"]}
{"id": "C75", "title": "Handlers that are added are used", "statement": "add_handler accepts exactly the documented names; every handler that was added is called by some message, and each call of a handler goes to the one that was added last under its name.", "quantifier": "all sequences of add_handler calls, all messages", "why_tests_cant": "All sequences of configuration calls and all messages; a handler that is silently never called shows up in no test.", "anchors": ["openleadr/server.py:OpenADRServer.add_handler", "openleadr/service/event_service.py:EventService.request_event", "openleadr/service/poll_service.py:PollService.poll"]}
{"id": "C76", "title": "What on_poll returns reaches the VEN", "statement": "For everything that on_poll may return according to its documentation (nothing, an event, a list of events, a message) the answer to the poll conveys exactly that.", "quantifier": "all return values, all configurations, all requests", "why_tests_cant": "All kinds and sizes of return values, through all layers up to the answer.", "anchors": ["openleadr/service/poll_service.py:PollService.poll", "openleadr/service/vtn_service.py:VTNService.handle_message"]}
{"id": "C77", "title": "A VEN's choices reach the callbacks of the VTN", "statement": "When the VTN sends events and the VEN answers with the choices of its handler, the VTN accepts the answer and each event's callback gets the VEN's choice for that event, whatever the VTN does in between for others.", "quantifier": "all histories of the event queue, all event handlers of the VEN, all clocks of both sides", "why_tests_cant": "Two programs with separate clocks and states; the failure needs a completed event and a VEN whose clock is behind.", "anchors": ["openleadr/service/event_service.py:EventService.created_event", "openleadr/service/event_service.py:EventService.request_event", "openleadr/client.py:OpenADRClient._on_event"]}
{"id": "C78", "title": "Sampled values reach the callbacks of the VTN that asked for them", "statement": "A report request of the VTN is stored by the VEN under the same id, each data point that the VEN samples for it has a callback at the VTN, and all values of complete reports reach that callback, in order, each once.", "quantifier": "all registrations and histories at the VTN, all samplings at the VEN, all granularities and report back durations with at least one sampling per report", "why_tests_cant": "Two programs and two data structures keyed by the request id, over unbounded sequences of samplings.", "anchors": ["openleadr/client.py:OpenADRClient.update_report", "openleadr/client.py:OpenADRClient.create_report", "openleadr/service/report_service.py:ReportService.register_report", "openleadr/service/report_service.py:ReportService.update_report"]}
{"id": "C79", "title": "The text of a message is read as the message that was meant", "statement": "Whatever texts a message carries: its text as rendered by the template, flattened and put into the envelope is XML, and parse_message reads from it exactly the elements and texts that were put in.", "quantifier": "all messages (element trees), all texts in them, all layouts of the template, with and without signature", "why_tests_cant": "Identifiers, names and comments may be any text; tests use texts of letters and digits only. Layout, flattening and parsing interact at every text.", "anchors": ["openleadr/messaging.py:create_message", "openleadr/messaging.py:parse_message", "openleadr/utils.py:flatten_xml", "openleadr/templates/oadrPayload.xml:1"]}
{"id": "C80", "title": "Only the texts of users can spoil a message", "statement": "For every kind of message that either side sends: if the texts that users chose (ids, names, comments, units) have no mark-up characters in them, the message is read by the other side exactly as meant. Times, durations, numbers, truth values and the fixed words of the protocol can never make it unreadable.", "quantifier": "all messages of 23 kinds, with any number of events, signals, intervals, reports, data points and targets; all layouts, with and without signature", "why_tests_cant": "All values of all fields of all messages; a time or number format with a reserved character would show only for particular values.", "anchors": ["openleadr/messaging.py:create_message", "openleadr/messaging.py:parse_message", "openleadr/utils.py:timedeltaformat", "openleadr/utils.py:datetimeformat", "openleadr/utils.py:booleanformat"]}
{"id": "C81", "title": "Messages damaged on the way are refused", "statement": "A message that was cut short anywhere, two messages run together, or a message in which the name at the beginning or the end of one element was changed, is never taken for a message: parse_message raises.", "quantifier": "all messages, all places of damage, signed and unsigned, all texts in them", "why_tests_cant": "Every prefix of every message, including those cut inside quotes, entities and tags.", "anchors": ["openleadr/messaging.py:parse_message", "openleadr/messaging.py:create_message", "openleadr/templates/oadrPayload.xml:1"]}
{"id": "C82", "title": "Everything the callbacks return is reported, each value once", "statement": "A report callback may return one value or a series. All values sampled for a request are in a report queued for the VTN or in the one being collected, in order and each once; the report being collected has fewer values than a complete one, so it will be sent.", "quantifier": "all sequences of samplings of any requests, all numbers of values per sampling, missing callbacks, all granularities and report back durations with at least one sampling per report, both collection modes", "why_tests_cant": "How many values callbacks return per sampling and how that divides the expected length is unbounded; tests return one value per sampling.", "anchors": ["openleadr/client.py:OpenADRClient.update_report"]}
{"id": "C83", "title": "What was sampled for a cancelled report is sent, and not taken for something else", "statement": "Cancelling a report leaves nothing behind: the values sampled for it so far are queued for the VTN before the request is forgotten, and the reports for a request contain only values sampled for that request.", "quantifier": "all states, all samplings during the pause of the cancellation, requests with new or reused ids", "why_tests_cant": "Needs a cancellation in the middle of collecting a report, and a later request with the same id.", "anchors": ["openleadr/client.py:OpenADRClient.cancel_report", "openleadr/client.py:OpenADRClient.update_report", "openleadr/client.py:OpenADRClient.create_report"]}
{"id": "C84", "title": "Templates print the message that is meant by a payload", "statement": "For every kind of message that create_message is given a payload for (objects, dicts, times, durations, numbers, optional entries left out or None), the template of that kind renders, and the text is a way to write exactly the message that is meant, whatever else is in the payload; with texts free of mark-up the other side gets from parse_message what was put in.", "quantifier": "all payloads of 23 kinds of messages: any number of events, signals, intervals, targets, reports, data points; all combinations of optional entries, all further entries; times in years 1000 to 9999, measurements with proper names", "why_tests_cant": "Each template has many optional parts and nested loops; tests render a few payloads per kind and look at the result by parsing it again.", "anchors": ["openleadr/messaging.py:create_message", "openleadr/templates/oadrDistributeEvent.xml:1", "openleadr/templates/parts/eiEvent.xml:1", "openleadr/templates/parts/eiEventSignal.xml:1", "openleadr/templates/parts/eiEventTarget.xml:1", "openleadr/templates/oadrUpdateReport.xml:1", "openleadr/templates/oadrRegisterReport.xml:1", "openleadr/templates/oadrPayload.xml:1"]}
{"id": "C85", "title": "Prefixes do not matter, namespaces do", "statement": "What a message means does not depend on the prefixes its sender chose, nor on where they are declared: two texts that say the same elements of the OpenADR namespaces are read as the same message. A text in which a name has no meaning (a prefix that is not declared where it is used, an attribute given twice, under any prefixes) is refused as XML, and no other well-formed text is; a message of another namespace is not taken for one of OpenADR.", "quantifier": "all trees of elements, all prefixes, default namespaces and places of declarations, redeclarations, all layouts", "why_tests_cant": "Tests use the prefixes of the templates of this package only; other implementations choose others.", "anchors": ["openleadr/messaging.py:parse_message", "openleadr/messaging.py:NAMESPACES"]}
{"id": "C86", "title": "A message is readable, whatever the payload", "statement": "Whatever payload create_message is given - entries of any type, missing entries, entries nobody asked for, made by users, by callbacks or by the library - it either raises an exception or returns a text that the other side reads as well-formed XML and as one message of that kind, as long as no text has mark-up in it; an unreadable message is never sent.", "quantifier": "all payloads (any nesting of dicts, lists, texts, numbers, times) for all 23 kinds of messages, all signatures, all prints of values", "why_tests_cant": "Payloads come from dicts of users and callbacks; tests only render payloads that are complete and of the right types.", "anchors": ["openleadr/messaging.py:create_message", "openleadr/templates/parts/emixInterface.xml:1", "openleadr/templates/parts/eiTarget.xml:1", "openleadr/templates/parts/eiEventSignal.xml:1", "openleadr/templates/oadrCreateOpt.xml:1"]}
{"id": "C87", "title": "What is sent passes the schema check of the receiver", "statement": "Every message that create_message makes from a payload passes validate_xml_schema on the other side (client and VTN check each message they receive against the OpenADR 2.0b schema and drop or refuse it otherwise); if a payload says something that OpenADR does not allow, it should not be sent.", "quantifier": "all payloads of 23 kinds of messages with any numbers of parts; all values, codes, durations, enumerated texts, measurements; signed or not", "why_tests_cant": "The schema has hundreds of types; which of the values that the library lets through they allow, tests check for a few messages only.", "anchors": ["openleadr/messaging.py:validate_xml_schema", "openleadr/messaging.py:create_message", "openleadr/schema/oadr_20b.xsd:1", "openleadr/schema/oadr_ei_20b.xsd:1", "openleadr/client.py:OpenADRClient._perform_request", "openleadr/service/vtn_service.py:VTNService.handler"]}
{"id": "C88", "title": "What two of this package say to each other arrives", "statement": "When a client of this package sends a request to a VTN of this package - create_message, the checks and parse_message at the VTN, its handler, create_message for the answer, the checks and parse_message at the client - then the handler is called once, with the contents that the client meant, and the client's method gets the message that the handler meant, completed with 200 OK and the number of the request; whatever the payloads say.", "quantifier": "all payloads of all kinds of messages (any numbers of parts), all handlers and their results, all settings of client and VTN, plain or TLS, signed or not", "why_tests_cant": "It goes through two templates, two schema checks, two parsers and the handlers in between; tests of the whole path use a few messages with the usual contents.", "anchors": ["openleadr/client.py:OpenADRClient._perform_request", "openleadr/service/vtn_service.py:VTNService.handler", "openleadr/service/vtn_service.py:VTNService.handle_message", "openleadr/messaging.py:create_message", "openleadr/messaging.py:parse_message", "openleadr/messaging.py:validate_xml_schema", "openleadr/client.py:OpenADRClient.poll"]}
{"id": "C89", "title": "Preflight touches nothing but what it corrects", "statement": "Whatever an event or an offered report contains - dicts with missing, additional or ill-typed members - preflight_message either raises or returns the same payload, in which at most these places differ: for events the duration of the active period, the current value of a signal, the namespace of its measurement, response_required, the creation time, and targets where there were none; for reports the report name, and name, description and namespace of a measurement. Nothing is removed.", "quantifier": "all payloads (any nesting of dicts, lists, texts, numbers, times) of the two message types that are checked, all readings of the clock", "why_tests_cant": "Payloads come from user code as free dicts; tests compare a few members of well-formed payloads.", "anchors": ["openleadr/preflight.py:preflight_message", "openleadr/preflight.py:_preflight_oadrDistributeEvent", "openleadr/preflight.py:_preflight_oadrRegisterReport", "openleadr/utils.py:validate_report_measurement_dict", "openleadr/utils.py:ungroup_targets_by_type"]}
{"id": "C90", "title": "Messages of the report service may overlap", "statement": "The report service of the VTN works on several messages at a time: while user code considers an offer of reports or stores received data, further messages arrive. Each message has the answer and the effect that it has when handled in one piece: offers are answered as if nothing else went on, confirmations are checked against what was requested last, data are handed to the callback given last and, as a whole, as at one moment; nothing is lost and no message waits for another one.", "quantifier": "all interleavings of any number of registrations, updates and confirmations from any VENs; all handlers and callbacks, whenever and however (result or exception) they answer; messages of any size", "why_tests_cant": "Tests send one message at a time, with handlers that answer at once.", "anchors": ["openleadr/service/report_service.py:ReportService.register_report", "openleadr/service/report_service.py:ReportService.update_report", "openleadr/service/report_service.py:ReportService.created_report"]}
{"id": "C91", "title": "Every message that the OpenADR schema allows can be read", "statement": "A message that passes validate_xml_schema - whoever wrote it, with whatever prefixes, layout, order of choices and optional elements, signed or not - is read by parse_message: it returns the name of one of the 23 messages and a payload, and no exception is raised while it is taken apart.", "quantifier": "all texts that are XML documents valid for the schema (all messages, optional parts, repetitions, any texts in them), all readings of float()", "why_tests_cant": "Tests read what this package writes; messages of other implementations have the parts that its templates never write, and any texts in them.", "anchors": ["openleadr/messaging.py:parse_message", "openleadr/messaging.py:validate_xml_schema", "openleadr/utils.py:normalize_dict", "openleadr/utils.py:parse_datetime", "openleadr/utils.py:parse_duration", "openleadr/schema/oadr_20b.xsd:1"]}
{"id": "C92", "title": "What preflight has corrected is right", "statement": "A payload that has passed preflight_message passes it again, without a change, at any time (events stay in the queue of the VTN as dicts and are sent repeatedly; preflight works in place). In each event response_required is never or always, the creation time is the given one or the present, the active period lasts as long as every signal, the targets are the given ones or those of targets_by_type one by one, and where both are given they are the same.", "quantifier": "all payloads (any nesting of dicts, lists, texts, numbers, times), any number of events and reports, all readings of the clock", "why_tests_cant": "Tests send a well-formed event once; that the result of the corrections satisfies all checks depends on seven passes that each change what others look at.", "anchors": ["openleadr/preflight.py:preflight_message", "openleadr/preflight.py:_preflight_oadrDistributeEvent", "openleadr/preflight.py:_preflight_oadrRegisterReport", "openleadr/utils.py:group_targets_by_type", "openleadr/utils.py:ungroup_targets_by_type", "openleadr/utils.py:validate_report_measurement_dict"]}
{"id": "C93", "title": "What is accepted as signed was signed, and is accepted once", "statement": "If only the owner of the expected certificate can make signatures, the object that a party reads from an accepted message is one that this owner signed; and the same signed elements are not accepted a second time, in whatever document they come. A message as create_message signs it is accepted exactly if its certificate is the expected one, the signature is right, it is at most five seconds old and it has not been accepted before.", "quantifier": "all documents (any arrangement of elements, signatures, references, Ids, timestamps and nonces), all histories of messages with a clock that does not run backwards, all certificates, signatures and caches", "why_tests_cant": "Tests verify messages that the package has just signed, and one with a changed text; they do not rearrange signed documents.", "anchors": ["openleadr/messaging.py:validate_xml_signature", "openleadr/messaging.py:_verify_replay_protect", "openleadr/messaging.py:_create_replay_protect", "openleadr/messaging.py:authenticate_message", "openleadr/messaging.py:create_message", "openleadr/utils.py:extract_pem_cert", "openleadr/client.py:OpenADRClient._perform_request"]}
{"id": "C94", "title": "The choices of the package are those of the schema", "statement": "Where the schema has a list of values - names and types of signals, response required, names, types and reading types of reports, scales, opt types and reasons, units of measurements - the functions and classes of the package take exactly the values of the schema: what they take can be sent, and whatever the schema allows can be used. The enumeration classes have as members the public names of their bodies, with the value assigned last, and these values are the ones that are checked.", "quantifier": "all texts (listed ones, x- extensions and any others) for all ten choices and all 17 measurements; all other arguments; all class bodies", "why_tests_cant": "Tests use one or two values of each list; a missing or misspelled entry shows only with the one value that nobody tried.", "anchors": ["openleadr/enums.py:Enum", "openleadr/enums.py:SIGNAL_NAME", "openleadr/enums.py:_ACCEPTABLE_UNITS", "openleadr/objects.py:EventSignal.__post_init__", "openleadr/objects.py:Opt.__post_init__", "openleadr/client.py:OpenADRClient.add_report", "openleadr/server.py:OpenADRServer.add_event", "openleadr/utils.py:validate_report_measurement_dict", "openleadr/schema/oadr_20b.xsd:1"]}
{"id": "C95", "title": "Every message of a VEN reaches the function that is there for it", "statement": "A VEN that has the URL of a VTN of this package - with or without slashes at the end, on either side - posts each of its messages to the path of a service of this VTN, the one to which OpenADR assigns the message, and a method of that service that is marked for this kind of message is called; answers (oadrResponse) are acknowledged. With another URL nothing is called.", "quantifier": "all URLs (without escapes and dot segments) and path prefixes with any number of slashes at the end, all messages that the client sends, all classes of services (any methods and marks)", "why_tests_cant": "Tests run client and server with one URL, and do not let the VTN cancel reports or registrations.", "anchors": ["openleadr/server.py:OpenADRServer.__init__", "openleadr/service/vtn_service.py:VTNService.__init__", "openleadr/service/vtn_service.py:VTNService.handle_message", "openleadr/service/decorators.py:handler", "openleadr/service/decorators.py:service", "openleadr/client.py:OpenADRClient.__init__", "openleadr/client.py:OpenADRClient._perform_request", "openleadr/client.py:OpenADRClient.cancel_report", "openleadr/client.py:OpenADRClient.on_cancel_party_registration"]}
{"id": "C96", "title": "A certificate has one fingerprint, in whatever form it comes", "statement": "The fingerprint is the same for the certificate of a TLS connection, for the same certificate in the KeyInfo of a message (in any layout of lines and indentation) and for the certificate file of a party, also when the file holds a chain of which it is the first. So the fingerprint that a party is shown at the start is the one by which the other side knows it, on the connection and in its messages. Texts that are no certificate give a ValueError and nothing else.", "quantifier": "all certificates (any bytes), all layouts of their base64, all chains of any length, any digest function", "why_tests_cant": "Tests use a handful of certificates made by one tool, in files with one certificate and lines of 64 characters; whether a chain is read right depends on the length of the certificate modulo three.", "anchors": ["openleadr/utils.py:certificate_fingerprint", "openleadr/utils.py:certificate_fingerprint_from_der", "openleadr/utils.py:get_cert_fingerprint_from_request", "openleadr/utils.py:extract_pem_cert", "openleadr/fingerprint.py:show_fingerprint", "openleadr/server.py:OpenADRServer.__init__", "openleadr/client.py:OpenADRClient.__init__"]}
{"id": "C97", "title": "Who is not authenticated gets nothing done", "statement": "Over TLS, with a lookup of VENs or fingerprints, a VTN calls user code, delivers data or changes what it knows in response to a message (other than a registration or a query for one) only if the message is from the VEN that it names: the certificate of the connection, and with verification the signature, is the one on file for that VEN.", "quantifier": "all texts that come in, all connections and certificates, all lookups, signature checks and settings of the VTN, all services (callbacks and handlers of the user)", "why_tests_cant": "Tests send messages that the package's own client writes, which always name the VEN; a message that leaves the optional element out is never sent.", "anchors": ["openleadr/service/vtn_service.py:VTNService.handler", "openleadr/service/report_service.py:ReportService.update_report", "openleadr/service/report_service.py:ReportService.created_report", "openleadr/service/report_service.py:ReportService.registered_report", "openleadr/service/report_service.py:ReportService.register_report", "openleadr/service/registration_service.py:RegistrationService.cancel_party_registration", "openleadr/service/event_service.py:EventService.created_event", "openleadr/service/poll_service.py:PollService.poll", "openleadr/messaging.py:authenticate_message", "openleadr/utils.py:normalize_dict"]}
{"id": "C98", "title": "A VEN deals with every message that the schema lets a VTN send in answer to a poll", "statement": "Whatever the schema lets a VTN answer to a poll, once it is parsed, does not make the VEN raise an exception or opt out of events for a mistake of its own; every event that asks for an answer and is not over gets one, every request for a report gets its plan and is confirmed, and every report that is to be cancelled and that the VEN sends is cancelled.", "quantifier": "all texts of messages that are valid for the schema (any length, any number of events, requests and signals), all reports that the VEN offers and sends, all clocks and all handlers that answer", "why_tests_cant": "Tests let the package's own VTN answer, which names VTNs and reports by words, writes times with a Z and never sends the rarer messages.", "anchors": ["openleadr/client.py:OpenADRClient._poll", "openleadr/client.py:OpenADRClient._on_event", "openleadr/client.py:OpenADRClient.create_report", "openleadr/client.py:OpenADRClient.cancel_report", "openleadr/client.py:OpenADRClient.on_cancel_party_registration", "openleadr/client.py:OpenADRClient.on_event", "openleadr/messaging.py:parse_message", "openleadr/utils.py:determine_event_status", "openleadr/utils.py:normalize_dict"]}
{"id": "C99", "title": "A VTN takes every response to its events that the schema lets a VEN give", "statement": "Whatever oadrCreatedEvent the schema lets a VEN send, once it is parsed, each response in it reaches the handler of the VTN once and in order, with the VEN, the id of the event as it stands in the message and what was chosen, and no exception comes of it; a VTN that keeps the events itself finds the event of a response exactly if it is in the VEN's queue under that id and modification number.", "quantifier": "all texts of oadrCreatedEvent messages that are valid for the schema (any number of responses, any ids, with or without descriptions), all handlers that do not raise, all queues of events with text ids", "why_tests_cant": "Tests send what the package's own client writes: always a list of responses, and ids that are UUIDs or words, never digits only.", "anchors": ["openleadr/service/event_service.py:EventService.created_event", "openleadr/messaging.py:parse_message", "openleadr/utils.py:normalize_dict"]}
{"id": "C100", "title": "A VTN takes every report with data that the schema lets a VEN send", "statement": "Whatever oadrUpdateReport the schema lets a VEN send, once it is parsed, each report in it is taken, in their order, and no exception comes of it: by one call of on_update_report if no callbacks are set, and otherwise by exactly those callbacks that are set for the report's request id and one of its r_ids, each once and with all the values of this r_id as they stand in the message, in their order.", "quantifier": "all texts of oadrUpdateReport messages that are valid for the schema (any number of reports, intervals and payloads, any ids and numbers), all sets of callbacks", "why_tests_cant": "Tests send what the package's own client writes: always intervals, each with a start and one payload, and at least one report.", "anchors": ["openleadr/service/report_service.py:ReportService.update_report", "openleadr/utils.py:group_by", "openleadr/messaging.py:parse_message", "openleadr/utils.py:normalize_dict"]}
